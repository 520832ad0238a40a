(** * Complaints about schemas are about schemas that are refused *)
From Verif Require Import Base BaseFacts Text TypesModel TypesSpec MetadataModel MetadataProofs SchemaModel SchemaSpec SchemaMetadata SchemaProofs SchemaRecognised SchemaViews
  WktErrorSpec MetadataErrorSpec SchemaErrorModel SchemaErrorSpec SchemaErrorProofs.

Lemma forall2_at {A B} (R : A -> B -> Prop) l l' i x : Forall2 R l l' -> nth_error l i = Some x -> exists y, nth_error l' i = Some y /\ R x y.
Proof.
  intros H. revert i. induction H as [|a b l l' Hab H IH]; intros [|i]; cbn [nth_error]; try discriminate.
  - intros [= <-]. eauto.
  - apply IH.
Qed.
Lemma same_column {f : N -> bytes} (inj : forall a b, f a = f b -> a = b) l : forall names names',
  Forall2 (fun x a => exists y, x = Some y /\ sc_name y = Some (f a)) l names -> Forall2 doubles l (map f names') -> names = names'.
Proof.
  induction l as [|x l IH]; intros names names' H1 H2; inversion H1 as [|? a ? r (y & -> & N) H1']; subst;
    destruct names' as [|b r']; inversion H2 as [|? ? ? ? (z & E & _ & N') H2']; subst; [reflexivity|].
  injection E as <-. rewrite N in N'. injection N' as N'. f_equal; [exact (inj _ _ N') | exact (IH _ _ H1' H2')].
Qed.

Lemma lists_within n : forall m P s c, within n s c -> lists (n + m) P s -> lists m P c.
Proof.
  induction n as [|n IH]; intros m P s c H L; cbn [within Nat.add lists] in *; [subst; exact L|].
  destruct H as (d & _ & E & H). destruct L as (_ & d' & E' & L). rewrite E in E'. injection E' as <-. exact (IH m P d c H L).
Qed.
Lemma taken_kind b k t : k <> KBox -> b = type_name (Native k XY Separate) -> taken b t -> exists d l, t = Native k d l.
Proof.
  intros Hk -> T. destruct t as [k' d l|e w].
  - exists d, l. destruct k, k'; try reflexivity; try contradiction; vm_compute in T; discriminate.
  - destruct k, e; try contradiction; vm_compute in T; discriminate.
Qed.
Lemma nested_stored name n t s : nested_name name n -> taken name t -> stored t s -> exists d l, lists n (coords d l) s.
Proof.
  intros (k & Hk & Hn & ->) T S. destruct (taken_kind name k t Hk Hn T) as (d & l & ->). exists d, l. destruct k; try contradiction; exact S.
Qed.
Lemma nested_coords name n t s c : nested_name name n -> taken name t -> stored t s -> within n s c -> exists d l, coords d l c.
Proof.
  intros NN T S Hin. destruct (nested_stored name n t s NN T S) as (d & l & L). exists d, l.
  apply (lists_within n 0 (coords d l) s c Hin). rewrite Nat.add_0_r. exact L.
Qed.
Lemma coords_struct d l c : coords d l c -> sc_format c = Some $"+s" -> separate d c.
Proof.
  destruct l; intros H F; [exact H|]. destruct H as (F' & _). rewrite F in F'. destruct d; vm_compute in F'; discriminate.
Qed.
Lemma coords_list d l c t : coords d l c -> sc_format c = Some ($"+w:" ++ t) -> interleaved d c.
Proof.
  destruct l; intros H F; [|exact H]. destruct H as (F' & _). rewrite F in F'. discriminate.
Qed.
Lemma separate_child d c j x : separate d c -> child_at c j x -> sc_format x = Some $"g" /\ exists a, sc_name x = Some [a].
Proof.
  intros (_ & H) At. destruct (forall2_at _ _ _ _ _ H At) as (nm & En & (y & [= <-] & F & N)). split; [exact F|].
  rewrite nth_error_map in En. destruct (nth_error _ j) as [a|]; [|discriminate]. cbn [option_map] in En. injection En as <-. eauto.
Qed.
Lemma dims_length d : (2 <= length (dim_names d) <= 4)%nat.
Proof. destruct d; vm_compute; lia. Qed.
Lemma size_value d t : $"+w:" ++ t = size_format d -> numeral_value t = Z.of_nat (length (dim_names d)).
Proof.
  destruct (size_text d) as (k & Ek & Hk & Lk). rewrite Ek, <- Lk. intros H. apply app_inv_head in H. subst t. unfold numeral_value. cbn [fold_left]. lia.
Qed.

(** Boxes *)
Lemma taken_box t : taken $"geoarrow.box" t -> exists d l, t = Native KBox d l.
Proof.
  intros T. destruct t as [k d l|e w]; [|destruct e; vm_compute in T; discriminate]. exists d, l. destruct k; try reflexivity; vm_compute in T; discriminate.
Qed.
Definition box_names (d : dim) : list bytes := map (fun c => [c] ++ $"min") (dim_names d) ++ map (fun c => [c] ++ $"max") (dim_names d).
Lemma box_length d s : box d s -> length (sc_children s) = (2 * length (dim_names d))%nat.
Proof.
  intros (_ & H). assert (L : length (sc_children s) = length (box_names d)) by (eapply Forall2_length; exact H).
  rewrite L. unfold box_names. rewrite app_length, !map_length. lia.
Qed.
Lemma box_at d s j x : box d s -> child_at s j x -> sc_format x = Some $"g" /\ exists a, sc_name x = Some ([a] ++ if (2 * j <? length (sc_children s))%nat then $"min" else $"max") /\
  nth_error (dim_names d) (if (2 * j <? length (sc_children s))%nat then j else j - length (dim_names d)) = Some a.
Proof.
  intros B At. pose proof (box_length d s B) as L. destruct B as (_ & H). destruct (forall2_at _ _ _ _ _ H At) as (nm & En & (y & [= <-] & F & N)). split; [exact F|].
  destruct (Nat.ltb_spec (2 * j) (length (sc_children s))) as [Hj|Hj].
  - rewrite nth_error_app1 in En by (rewrite map_length; lia). rewrite nth_error_map in En.
    destruct (nth_error _ j) as [a|] eqn:Ea; [|discriminate]. cbn [option_map] in En. injection En as <-. exists a. auto.
  - rewrite nth_error_app2 in En by (rewrite map_length; lia). rewrite map_length, nth_error_map in En.
    destruct (nth_error (dim_names d) _) as [a|] eqn:Ea; [|discriminate]. cbn [option_map] in En. injection En as <-. exists a. auto.
Qed.
Lemma suffix_inj (a b : N) (t : bytes) : [a] ++ t = [b] ++ t -> a = b.
Proof. intros H. injection H as H. exact H. Qed.
Lemma box_pairs d s j k x m a b : box d s -> (2 * k = length (sc_children s))%nat -> child_at s (k + j) x -> sc_name x = Some ([b] ++ $"max") ->
  child_at s j m -> sc_name m = Some ([a] ++ $"min") -> a = b.
Proof.
  intros B Hk Ax Nx Am Nm. pose proof (box_length d s B) as L.
  destruct (box_at d s _ x B Ax) as (_ & a1 & N1 & E1). destruct (box_at d s _ m B Am) as (_ & a2 & N2 & E2).
  replace (2 * (k + j) <? length (sc_children s))%nat with false in N1, E1 by (symmetry; apply Nat.ltb_ge; lia).
  assert (Hj : (2 * j <? length (sc_children s))%nat = true).
  { destruct (2 * j <? length (sc_children s))%nat; [reflexivity|]. rewrite Nm in N2. injection N2 as N2 N3. discriminate. }
  rewrite Hj in N2, E2. rewrite Nx in N1. apply (f_equal (option_map (hd 0%N))) in N1. cbn in N1. injection N1 as ->.
  rewrite Nm in N2. apply (f_equal (option_map (hd 0%N))) in N2. cbn in N2. injection N2 as ->.
  replace (k + j - length (dim_names d))%nat with j in E1 by lia. congruence.
Qed.

Lemma complaint_contradicts s b text t : schema_complaint s (Some b) text ->
  (firstn 12 b = $"geoarrow.wkb" -> b = $"geoarrow.wkb") -> taken b t -> stored t s -> False.
Proof.
  intros C Nb T S. remember (Some b) as o eqn:Eo. destruct C; try discriminate Eo; injection Eo as Eo; subst.
  - (* unrecognized *) destruct t as [k d l|[] w]; cbn [taken] in T; try (exact (H _ T)). exact (H (Serialized Wkb w) (Nb T)).
  - destruct t as [k d l|[] w]; cbn [taken] in T; try (destruct k; vm_compute in T; discriminate); try (vm_compute in T; discriminate).
    destruct w; destruct S as (F & _); refine (H _ _ F); cbn [In]; auto.
  - destruct t as [k d l|[] w]; cbn [taken] in T; try (subst b; destruct k; vm_compute in H; discriminate); try (subst b; vm_compute in H; discriminate).
    destruct w; destruct S as (F & _); refine (H0 _ _ F); cbn [In]; auto.
  - (* not a list *) destruct (nested_stored _ _ _ _ H T S) as (d & l & L). apply H2.
    replace n with (k + (1 + (n - k - 1)))%nat in L by lia. apply (lists_within k _ _ _ _ H1) in L. destruct L as (F & c & E & _). split; [exact F | rewrite E; reflexivity].
  - destruct (nested_coords _ _ _ _ _ H T S H0) as (d & l & L). apply coords_format in L. destruct l; [exact (H1 L)|]. destruct L as (u & L). exact (H2 u L).
  - destruct (nested_coords _ _ _ _ _ H T S H0) as (d & l & L). apply (coords_struct _ _ _ L) in H1 as (_ & H1). apply H2.
    assert (E : length (sc_children c) = length (map (fun c : N => [c]) (dim_names d))) by (eapply Forall2_length; exact H1).
    rewrite E, map_length. apply dims_length.
  - destruct (nested_coords _ _ _ _ _ H T S H0) as (d & l & L). apply (coords_struct _ _ _ L) in H1.
    destruct (separate_child _ _ _ _ H1 H2) as (_ & a & E). exact (H3 a E).
  - destruct (nested_coords _ _ _ _ _ H T S H0) as (d & l & L). apply (coords_struct _ _ _ L) in H1.
    destruct (separate_child _ _ _ _ H1 H2) as (E & _). exact (H3 E).
  - destruct (nested_coords _ _ _ _ _ H T S H0) as (d & l & L). apply (coords_struct _ _ _ L) in H1 as (_ & H1). apply H3. exists d.
    apply (same_column (f := fun c => [c])) with (l := sc_children c); [intros x y E; injection E as E; exact E | exact H2 | exact H1].
  - destruct (nested_coords _ _ _ _ _ H T S H0) as (d & l & L). apply (coords_list _ _ _ _ L) in H1 as (_ & y & E & F & _).
    unfold child_at in H2. rewrite E in H2. cbn [nth_error] in H2. injection H2 as <-. exact (H3 F).
  - destruct (nested_coords _ _ _ _ _ H T S H0) as (d & l & L). destruct (coords_list _ _ _ _ L H1) as (F & y & E & _ & N).
    unfold child_at in H2. rewrite E in H2. cbn [nth_error] in H2. injection H2 as <-.
    rewrite H1 in F. injection F as F. apply size_value in F. rewrite F in H4. apply H4. destruct d; vm_compute; auto.
  - destruct (nested_coords _ _ _ _ _ H T S H0) as (d' & l & L). destruct (coords_list _ _ _ _ L H1) as (F & y & E & _ & N).
    unfold child_at in H2. rewrite E in H2. cbn [nth_error] in H2. injection H2 as <-.
    rewrite H1 in F. injection F as F. apply size_value in F. destruct N as [N|[_ N]]; [|exact (N d H3)].
    rewrite H3 in N. injection N as N. rewrite N in H4. contradiction.
  - destruct (taken_box t T) as (d & l & ->). destruct S as (F & _). exact (H F).
  - destruct (taken_box t T) as (d & l & ->). apply box_length in S. apply H. rewrite S. destruct d; vm_compute; auto.
  - destruct (taken_box t T) as (d & l & ->). destruct (box_at d s j x S H) as (_ & a & N & _). refine (H0 _ N _). destruct (_ <? _)%nat; reflexivity.
  - destruct (taken_box t T) as (d & l & ->). destruct (box_at d s j x S H) as (F & _). exact (H0 F).
  - destruct (taken_box t T) as (d & l & ->). destruct (box_at d s j x S H0) as (_ & a & N & _). rewrite H1 in N. injection N as N. exact (H2 [a] N).
  - destruct (taken_box t T) as (d & l & ->). pose proof (box_length d s S) as L. destruct S as (_ & S). apply H. exists d.
    apply Forall2_app_split in S as (S & _). rewrite map_length in S. replace (length (dim_names d)) with (length found) in S by lia.
    exact (same_column (f := fun c => [c] ++ $"min") (fun a b => suffix_inj a b _) _ _ _ H1 S).
  - destruct (taken_box t T) as (d & l & ->). destruct H1 as (k & Hk & Hj & Am). apply H3.
    refine (box_pairs d s (j - k) k x m a b0 S Hk _ H0 Am H2). replace (k + (j - k))%nat with j by lia. exact H.
Qed.
Lemma misnumbered_contradicts s text t : misnumbered s text -> taken $"geoarrow.box" t -> stored t s -> False.
Proof.
  intros [j x m k a b i Ax Nx Am Nm Nab Hk Hj _] T S. destruct (taken_box t T) as (d & l & ->). exact (Nab (box_pairs d s j k x m a b S Hk Ax Nx Am Nm)).
Qed.

Lemma complaint_refused s es text : well_formed s -> holds (sc_metadata s) es ->
  (forall name, value_of $"ARROW:extension:name" es = Some name -> firstn 12 name = $"geoarrow.wkb" -> name = $"geoarrow.wkb") ->
  schema_complaint s (value_of $"ARROW:extension:name" es) text -> schema_view_init s = Err EINVAL.
Proof.
  intros W H N C. destruct (view_init_spec s es W H) as (Q & V1 & V2). destruct Q as [(v & E)|E]; [exfalso | exact E].
  destruct (V2 v E) as ((t & _ & St) & _). destruct (proj1 (V1 t) (ex_intro _ v (conj E St))) as (_ & (b & Hb & T) & S).
  change name_key with $"ARROW:extension:name" in Hb. rewrite Hb in C. exact (complaint_contradicts s b text t C (N b Hb) T S).
Qed.

Lemma storage_refused s view b text : well_formed s -> views view b -> (firstn 12 b = $"geoarrow.wkb" -> b = $"geoarrow.wkb") ->
  schema_complaint s (Some b) text -> schema_view_init_from_storage s view = Err EINVAL.
Proof.
  intros W Hn N C. destruct (from_storage_spec s view b W Hn) as (Q & V1 & V2). destruct Q as [(v & E)|E]; [exfalso | exact E].
  destruct (V2 v E) as ((t & _ & St) & _). destruct (proj1 (V1 t) (ex_intro _ v (conj E St))) as (_ & T & S).
  exact (complaint_contradicts s b text t C N T S).
Qed.

(** ** Schemas for examples *)
Definition named_schema (format name : bytes) (cs : list schema) : schema :=
  Schema false (Some format) None (Some (metadata_bytes [(name_key, name)])) 2 (map Some cs) None.
Definition column (format name : bytes) : schema := Schema false (Some format) (Some name) None 2 [] None.
Lemma column_well_formed f n : (forall t, f <> $"+w:" ++ t) -> well_formed (column f n).
Proof. intros H. apply (wf_simple f (Some n) None 2 [] []); auto; [intros t E; destruct (H t E) | split; [split; [reflexivity | constructor] | reflexivity]]. Qed.
Lemma named_well_formed f n cs : (forall t, f = $"+w:" ++ t -> numeral t /\ (numeral_value t < 2147483648)%Z) -> fits [(name_key, n)] ->
  (forall c, In c cs -> well_formed c) -> well_formed (named_schema f n cs).
Proof. intros H F C. apply (wf_simple f None _ 2 cs [(name_key, n)]); auto; [|apply Forall_forall; exact C]. split; [exact F | exists []; rewrite app_nil_r; reflexivity]. Qed.

Lemma small_fits n : (length n < 100)%nat -> fits [(name_key, n)].
Proof. intros H. split; [reflexivity|]. constructor; [|constructor]. split; cbn [fst snd]; [reflexivity | unfold short; lia]. Qed.
