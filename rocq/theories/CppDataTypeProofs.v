(** * Proofs about type objects *)
From Coq Require Import Permutation.
From Verif Require Import Base BaseFacts Text TypesModel TypesSpec MetadataModel MetadataSpec MetadataProofs MetadataReading MetadataMeaning MetadataWriting MetadataReread
  CppWkbModel KernelStartModel CppDataTypeModel KernelStartSpec SchemaModel SchemaSpec SchemaProofs SchemaViews KernelStartProofs CppDataTypeSpec.
Local Open Scope Z_scope.

(** ** Texts *)
Lemma bare_plain : forall s, bare s = plain_of false s.
Proof.
  fix IH 1. intros [|c s]; cbn [bare plain_of negb andb]; [reflexivity|]. change backslash with 92%N. destruct (c =? 92)%N; [|f_equal; apply IH].
  destruct s as [|e s]; cbn [plain_of negb andb]; [reflexivity | f_equal; apply IH].
Qed.
Lemma told_text b : told b = unescape_text b.
Proof. destruct b as [|c s]; [reflexivity|]. cbn [told unescape_text]. change quote with 34%N. destruct (c =? 34)%N; [apply bare_plain | reflexivity]. Qed.

Lemma filled_exact out text out' : length out = length text -> filled out (Z.of_nat (length text)) text out' -> out' = text.
Proof.
  intros Hl H. unfold filled in H. rewrite H, Nat2Z.id, firstn_app, firstn_all, Nat.sub_diag. cbn [firstn]. rewrite app_nil_r.
  rewrite skipn_all2 by lia. apply app_nil_r.
Qed.
Lemma malloc_length junk n : length (malloc junk n) = Z.to_nat n.
Proof. unfold malloc. rewrite map_length, seq_length. reflexivity. Qed.

Lemma carriable_size m : (m_crs_type m = CRS_NONE \/ carriable (m_crs m)) -> Z.of_nat (length (serialized m)) = serialized_size m.
Proof. intros Hc. apply serialized_length. destruct Hc as [Hc|[[[_ Hc]|[Hc _]]|[_ Hc]]]; auto. Qed.
Definition kept (m : metadata) : metadata :=
  Metadata (m_edges m) (m_crs_type m) (if m_crs_type m =? CRS_NONE then [] else crs_text (m_crs m)).
Lemma kept_read past fuel m : known m -> (m_crs_type m = CRS_NONE \/ carriable (m_crs m)) -> (length (serialized m) < fuel)%nat ->
  metadata_view_init past fuel (serialized m) = Ok (kept m).
Proof.
  intros Hk [Hc|[Hc|Hc]] Hf.
  - apply read_back; auto.
  - apply read_back; auto.
  - rewrite read_back_loose by auto. unfold kept. rewrite (loose_crs_text _ Hc). reflexivity.
Qed.
Lemma kept_told b : carriable b -> told (crs_text b) = told b.
Proof.
  intros [[[H1 H2]|[H1 H2]]|H].
  - unfold crs_text. rewrite needs_escape_starts, H2. reflexivity.
  - rewrite !told_text. unfold crs_text. rewrite needs_escape_starts, H2. cbn [negb app unescape_text]. change ((quote =? quote)%N) with true. cbv iota.
    rewrite removelast_last. transitivity b.
    + rewrite <- bare_plain. clear H2. induction b as [|c b IH]; [reflexivity|].
      cbn [write_escaped flat_map]. fold (write_escaped b). specialize (IH ltac:(intros Hi; apply H1; right; exact Hi)).
      destruct (N.eqb_spec c quote) as [->|Hq]; cbn [app bare].
      * change (backslash =? 92)%N with true. cbv iota. f_equal. exact IH.
      * destruct (N.eqb_spec c 92) as [->|_]; [exfalso; apply H1; left; reflexivity|]. f_equal. exact IH.
    + destruct b as [|c b]; [reflexivity|]. cbn [starts] in H2. cbn [unescape_text]. change quote with 34%N. apply orb_false_iff in H2 as [-> _]. reflexivity.
  - rewrite (loose_crs_text b H). reflexivity.
Qed.
Lemma kept_carriable b : carriable b -> carriable (crs_text b).
Proof.
  intros [H|H].
  - left. left. apply crs_text_json. exact H.
  - right. rewrite (loose_crs_text b H). exact H.
Qed.
Lemma crs_text_again b : carriable b -> crs_text (crs_text b) = crs_text b.
Proof.
  intros H. assert (Hs : starts 34 (crs_text b) || starts 123 (crs_text b) = true).
  { destruct H as [H|H]; [exact (proj2 (crs_text_json b H)) | rewrite (loose_crs_text b H); exact (proj2 H)]. }
  unfold crs_text at 1. rewrite needs_escape_starts, Hs. reflexivity.
Qed.

(** ** Lengths *)
Lemma loose_values_length ms b : loose_members ms b -> forall k v, In (k, v) ms -> (length v <= length b)%nat.
Proof.
  induction 1 as [|w1 k w2 w3 v j|w1 k w2 w3 v j ms b H1 H2 H3 H4 H5 H6 H IH]; intros k' v' Hi.
  - destruct Hi.
  - destruct Hi as [[= -> ->]|[]]. rewrite !app_length. lia.
  - destruct Hi as [[= -> ->]|Hi]; [rewrite !app_length; lia|]. apply IH in Hi. rewrite !app_length. lia.
Qed.
Lemma member_keeps m k v m' : loose_value v -> member m k v = Ok m' -> m_crs m' = m_crs m \/ m_crs m' = v.
Proof.
  intros Hv H. destruct (list_eq_dec N.eq_dec k (quoted $"edges")) as [->|N1].
  { rewrite member_edges, edges_member_said in H by exact Hv. destruct (edges_said (Some v)); [|discriminate]. injection H as <-. left. reflexivity. }
  destruct (list_eq_dec N.eq_dec k (quoted $"crs")) as [->|N2].
  { rewrite member_crs, crs_member_said in H by exact Hv. destruct (crs_said (Some v)) as [[c|]|] eqn:Ec; [| |discriminate]; injection H as <-.
    - apply crs_said_not_empty in Ec as Hn. destruct Hn as [[= <-] Hn]. right. reflexivity.
    - left. reflexivity. }
  destruct (list_eq_dec N.eq_dec k (quoted $"crs_type")) as [->|N3].
  { rewrite member_crs_type, crs_type_member_by_length in H. destruct (starts 34 v); [|discriminate]. injection H as <-. left. reflexivity. }
  rewrite member_other in H by assumption. injection H as <-. left. reflexivity.
Qed.
Lemma members_keep ms : Forall (fun kv => loose_value (snd kv)) ms -> forall m m', members_fold m ms = Ok m' ->
  m_crs m' = m_crs m \/ exists k, In (k, m_crs m') ms.
Proof.
  induction 1 as [|[k v] ms Hv _ IH]; intros m m'; cbn [members_fold]; [intros [= <-]; left; reflexivity|].
  destruct (member m k v) as [m1| | |] eqn:E; cbn [obind]; try discriminate. intros H. destruct (IH m1 m' H) as [E'|(k' & Hi)].
  - apply member_keeps in E; [|exact Hv]. destruct E as [E|E]; [left; congruence|]. right. exists k. left. congruence.
  - right. exists k'. right. exact Hi.
Qed.
Lemma view_crs_length past fuel b m : metadata_view_init past fuel b = Ok m -> (length (m_crs m) <= length b)%nat.
Proof.
  intros H. apply view_init_ok in H as [[_ ->]|(ms & m0 & Hl & Hf & ->)]; [cbn; lia|].
  assert (m_crs (finish m0) = m_crs m0) as -> by (unfold finish; destruct (m_crs m0) eqn:E; cbn [set_crs_type m_crs]; congruence).
  destruct Hl as (w & w1 & w' & body & _ & _ & _ & -> & Hm).
  destruct (members_keep ms (loose_members_values _ _ Hm) _ _ Hf) as [E|(k & Hi)]; [rewrite E; cbn; lia|].
  apply (loose_values_length _ _ Hm) in Hi. rewrite !app_length. lia.
Qed.
Lemma crs_text_length b : Z.of_nat (length (crs_text b)) <= 2 * Z.of_nat (length b) + 2.
Proof.
  unfold crs_text. destruct (needs_escape b); [|lia]. rewrite !app_length. cbn [length].
  assert ((length (write_escaped b) <= 2 * length b)%nat); [|lia].
  induction b as [|c b IH]; [cbn; lia|]. cbn [write_escaped flat_map]. fold (write_escaped b). rewrite app_length. destruct (c =? quote)%N; cbn [length]; lia.
Qed.
Lemma serialized_bound m : Z.of_nat (length (crs_text (m_crs m))) <= 2000000002 -> short (serialized m).
Proof.
  intros H. unfold short, serialized.
  assert (E : (length (edge_type_string (m_edges m)) <= 100)%nat).
  { unfold edge_type_string. repeat match goal with |- context [if ?b then _ else _] => destruct b end; vm_compute; lia. }
  assert (C : (length (crs_type_string (m_crs_type m)) <= 100)%nat).
  { unfold crs_type_string. repeat match goal with |- context [if ?b then _ else _] => destruct b end; vm_compute; lia. }
  change (if needs_escape (m_crs m) then [quote] ++ write_escaped (m_crs m) ++ [quote] else m_crs m) with (crs_text (m_crs m)).
  remember (crs_text (m_crs m)) as t. clear Heqt.
  repeat match goal with |- context [if ?b then _ else _] => destruct b end;
    rewrite ?app_length; change (length $"""edges"":") with 8%nat; change (length $"""crs_type"":") with 11%nat;
    change (length $"""crs"":") with 6%nat; cbn [length]; lia.
Qed.

(** ** Types *)
Lemma geometry_cases g : geometry_enumerator g -> (exists k, g = geometry_kind_code k) \/ g = 0 \/ g = 7.
Proof.
  intros [H| ->]; [|left; exists KBox; reflexivity].
  assert (g = 0 \/ g = 1 \/ g = 2 \/ g = 3 \/ g = 4 \/ g = 5 \/ g = 6 \/ g = 7) as [->|[->|[->|[->|[->|[->|[->| ->]]]]]]] by lia; auto;
    left; [exists KPoint | exists KLinestring | exists KPolygon | exists KMultipoint | exists KMultilinestring | exists KMultipolygon]; reflexivity.
Qed.
Lemma dims_cases d : 0 <= d <= 4 -> (exists d', d = dim_code d') \/ d = 0.
Proof.
  intros H. assert (d = 0 \/ d = 1 \/ d = 2 \/ d = 3 \/ d = 4) as [->|[->|[->|[->| ->]]]] by lia; auto;
    left; [exists XY | exists XYZ | exists XYM | exists XYZM]; reflexivity.
Qed.
Lemma coords_cases c : 0 <= c <= 2 -> (exists l, c = layout_code l) \/ c = 0.
Proof. intros H. assert (c = 0 \/ c = 1 \/ c = 2) as [->|[->| ->]] by lia; auto; left; [exists Separate | exists Interleaved]; reflexivity. Qed.
Lemma parts_unique t t' : (exists k d l, t = Native k d l) -> (exists k d l, t' = Native k d l) -> parts t = parts t' -> t = t'.
Proof.
  intros (k & d & l & ->) (k' & d' & l' & ->) H. cbn [parts] in H. injection H as H1 H2 H3. f_equal.
  - destruct k, k'; try reflexivity; discriminate H1.
  - destruct d, d'; try reflexivity; discriminate H2.
  - destruct l, l'; try reflexivity; discriminate H3.
Qed.
Lemma composed_unique g d c t t' : composed g d c t -> composed g d c t' -> t = t'.
Proof.
  intros (k & d1 & l & E & _ & P) (k' & d2 & l' & E' & _ & P'). apply parts_unique; [eauto | eauto | congruence].
Qed.
Definition built (t : geo_type) (m : metadata) (b : nat) : object :=
  let '(g, d, c) := parts t in construct (type_id t) g d c m b.
Lemma from_type_made t text b : exists_type t -> make_from_type (type_id t) text b = do m <- string_metadata text; Ok (built t m b).
Proof.
  intros He. unfold make_from_type. rewrite type_initialised. destruct (from_type t He) as (v & -> & [Ht Hp] & _). cbn [throw_not_ok obind].
  unfold built. rewrite <- Hp, Ht. reflexivity.
Qed.
Lemma parts_made g d c : geometry_enumerator g -> 0 <= d <= 4 -> 0 <= c <= 2 ->
  (exists t, composed g d c t /\ forall text b, make_from_parts g d c text b = do m <- string_metadata text; Ok (built t m b)) \/
  ((forall t, ~ composed g d c t) /\ forall text b, make_from_parts g d c text b = Err THROWN).
Proof.
  intros Hg Hd Hc.
  assert (Hno : forall t, composed g d c t -> (exists k, g = geometry_kind_code k /\ (k = KBox -> c = 1)) /\ d <> 0 /\ c <> 0).
  { intros t (k & d' & l & -> & He & P). cbn [parts] in P. injection P as <- <- <-. split; [exists k; split; [reflexivity|]|].
    - intros Hk. rewrite (He Hk). reflexivity.
    - destruct d', l; cbn; lia. }
  destruct (geometry_cases g Hg) as [(k & ->)|[->| ->]].
  2:{ right. split; [intros t H; apply Hno in H as ((k & E & _) & _); destruct k; discriminate E | reflexivity]. }
  2:{ right. split; [intros t H; apply Hno in H as ((k & E & _) & _); destruct k; discriminate E|].
      destruct (dims_cases d Hd) as [([] & ->)| ->]; destruct (coords_cases c Hc) as [([] & ->)| ->]; reflexivity. }
  destruct (dims_cases d Hd) as [(d' & ->)| ->].
  2:{ right. split; [intros t H; apply Hno in H as (_ & H & _); lia|]. intros. unfold make_from_parts, make_type. destruct k; reflexivity. }
  destruct (coords_cases c Hc) as [(l & ->)| ->].
  2:{ right. split; [intros t H; apply Hno in H as (_ & _ & H); lia|]. intros. unfold make_from_parts, make_type. destruct k, d'; reflexivity. }
  assert (D : k = KBox /\ l = Interleaved \/ supported k d' l).
  { destruct k; try (right; intros Hk; discriminate Hk). destruct l; [right; intros _; reflexivity | left; split; reflexivity]. }
  destruct D as [[-> ->]|D].
  - right. split; [|destruct d'; reflexivity]. intros t H. apply Hno in H as ((k & E & Hk) & _).
    destruct k; try discriminate E. specialize (Hk eq_refl). discriminate Hk.
  - left. exists (Native k d' l). split; [exists k, d', l; split; [reflexivity | split; [exact D | reflexivity]]|].
    intros text b. rewrite <- (from_type_made (Native k d' l) text b D). unfold make_from_parts.
    assert (make_type (geometry_kind_code k) (dim_code d') (layout_code l) = type_id (Native k d' l)) as ->.
    { destruct k, d', l; try reflexivity. all: specialize (D eq_refl); discriminate D. }
    rewrite type_initialised. reflexivity.
Qed.
Lemma schema_made s t text b : schema_of s t text -> exists past,
  make_from_schema s b = do m <- throw_not_ok (metadata_view_init past (S (length (text_of text))) (text_of text)); Ok (built t m b).
Proof.
  intros (es & W & H & He & Hs & Hn & Hm). destruct (view_init_spec s es W H) as (_ & V & N).
  destruct (proj2 (V t)) as (v & E & [Et Ep]).
  { split; [exact He|]. split; [|exact Hs]. exists (type_name t). split; [exact Hn | apply taken_name]. }
  destruct (N v E) as (_ & _ & Hv). assert (Hx : viewed (gv_metadata v) text) by (rewrite <- Hm; exact Hv).
  destruct (view_text _ _ Hx) as (past & Ex). exists past. unfold make_from_schema. rewrite E. cbn [throw_not_ok obind]. rewrite Ex. cbn [obind].
  unfold built. rewrite <- Ep, Et. reflexivity.
Qed.
Lemma name_views name : views (StrView (name ++ [0%N]) 0 (Z.of_nat (length name))) name.
Proof.
  split; [|reflexivity]. unfold sv_bytes. cbn [sv_memory sv_offset sv_size]. destruct (Z.ltb_spec (Z.of_nat (length name)) 0); [lia|].
  rewrite Nat2Z.id. unfold slice. rewrite app_length. cbn [length]. destruct (Z.leb_spec (0 + Z.of_nat (length name)) (Z.of_nat (length name + 1))); [|lia].
  change (0 <=? 0) with true. cbn [andb]. change (Z.to_nat 0) with 0%nat. cbn [skipn]. rewrite firstn_app, firstn_all, Nat.sub_diag. cbn [firstn].
  rewrite app_nil_r. reflexivity.
Qed.
Lemma storage_made s t text b : well_formed s -> exists_type t -> stored t s ->
  make_from_storage s (type_name t) text b = do m <- string_metadata text; Ok (built t m b).
Proof.
  intros W He Hs. destruct (from_storage_spec s _ _ W (name_views (type_name t))) as (_ & V & _).
  destruct (proj2 (V t)) as (v & E & [Et Ep]); [split; [exact He | split; [apply taken_name | exact Hs]]|].
  unfold make_from_storage. rewrite E. cbn [throw_not_ok obind]. unfold built. rewrite <- Ep, Et. reflexivity.
Qed.
Lemma storage_not_made s name text b : well_formed s -> (firstn 12 name = $"geoarrow.wkb" -> name = $"geoarrow.wkb") ->
  (forall t, exists_type t -> name = type_name t -> ~ stored t s) -> make_from_storage s name text b = Err THROWN.
Proof.
  intros W Hw Hn. destruct (from_storage_spec s _ _ W (name_views name)) as (Q & V & N).
  unfold make_from_storage. destruct Q as [[v E]|E]; [|rewrite E; reflexivity]. exfalso.
  destruct (N v E) as ((t & He & Hs) & _). destruct (proj1 (V t) (ex_intro _ v (conj E Hs))) as (_ & Ht & Hst).
  apply (Hn t He); [|exact Hst]. destruct t as [k d l|[] w]; cbn [taken type_name] in *; try exact Ht. exact (Hw Ht).
Qed.

(** ** Objects that represent values *)
Definition type_exists (t : option geo_type) : Prop := match t with Some t => exists_type t | None => True end.
(** [raw] is what the view of the CRS shows. *)
Record rep (o : object) (v : value) (raw : bytes) : Prop := Rep
  { rep_type : o_type o = id_of (v_type v);
    rep_parts : (o_geometry o, o_dims o, o_coords o) = parts_of (v_type v);
    rep_exists : type_exists (v_type v);
    rep_edges : o_edges o = v_edges v;
    rep_crs_type : o_crs_type o = v_crs_type v;
    rep_known : 0 <= v_edges v <= 5 /\ 0 <= v_crs_type v <= 5;
    rep_size : o_size o = Z.of_nat (length raw);
    rep_view : raw = [] \/ o_data o = Some (o_buffer o) /\ firstn (length raw) (o_string o) = raw;
    rep_told : told raw = v_crs v;
    rep_carriable : v_crs_type v = CRS_NONE \/ carriable raw;
    rep_length : Z.of_nat (length (crs_text raw)) <= 2000000002 }.
Definition rep_slot (x : option object) (y : option value) : Prop :=
  match x, y with
  | Some o, Some v => exists raw, rep o v raw
  | None, None => True
  | _, _ => False
  end.
Definition buffers (os : list (option object)) : list nat := flat_map (fun x => match x with Some o => [o_buffer o] | None => [] end) os.
Record represents (st : store) (vs : list (option value)) : Prop := Represents
  { reps : Forall2 rep_slot (st_objects st) vs;
    distinct : NoDup (buffers (st_objects st));
    named : Forall (fun b => b < st_fresh st)%nat (buffers (st_objects st)) }.

Lemma represented st vs i v : represents st vs -> value_at vs i v ->
  exists o raw, object_at st i = Ok o /\ rep o v raw /\ nth_error (st_objects st) i = Some (Some o).
Proof.
  intros H Hv. unfold value_at in Hv. pose proof (reps _ _ H) as F. clear H. unfold object_at. revert i Hv.
  induction F as [|x y xs ys Hxy F IH]; intros [|i] Hv; cbn [nth_error] in *; try discriminate.
  - injection Hv as ->. destruct x as [o|]; [|destruct Hxy]. destruct Hxy as [raw Hr]. exists o, raw. auto.
  - apply IH. exact Hv.
Qed.
Lemma string_found os i o : NoDup (buffers os) -> nth_error os i = Some (Some o) -> string_named os (o_buffer o) = Some (o_string o).
Proof.
  revert i. induction os as [|x os IH]; intros [|i] Hd Hi; cbn [nth_error string_named] in *; try discriminate.
  - injection Hi as ->. rewrite Nat.eqb_refl. reflexivity.
  - destruct x as [o'|].
    + cbn [buffers flat_map app] in Hd. apply NoDup_cons_iff in Hd as [Hn Hd]. destruct (Nat.eqb_spec (o_buffer o') (o_buffer o)) as [E|_].
      * exfalso. apply Hn. rewrite E. apply in_flat_map. exists (Some o). split; [exact (nth_error_In _ _ Hi) | left; reflexivity].
      * exact (IH i Hd Hi).
    + exact (IH i Hd Hi).
Qed.
Lemma view_shows st vs i o v raw : represents st vs -> nth_error (st_objects st) i = Some (Some o) -> rep o v raw -> crs_view st o = Ok raw.
Proof.
  intros H Hi R. unfold crs_view. rewrite (rep_size _ _ _ R). destruct (rep_view _ _ _ R) as [->|[Ed Es]]; [reflexivity|].
  destruct raw as [|c r]; [reflexivity|]. remember (c :: r) as raw. destruct (Z.eqb_spec (Z.of_nat (length raw)) 0) as [E|_]; [subst raw; cbn in E; lia|].
  rewrite Ed, (string_found _ i o (distinct _ _ H) Hi). rewrite Nat2Z.id, Es.
  destruct (Z.leb_spec (Z.of_nat (length raw)) (Z.of_nat (length (o_string o)))) as [_|L]; [reflexivity|].
  exfalso. apply (f_equal (@length _)) in Es. rewrite firstn_length in Es. lia.
Qed.

(** What is read through the view. *)
Definition metadata_with (v : value) (raw : bytes) : metadata := Metadata (v_edges v) (v_crs_type v) raw.
Lemma metadata_shows st vs i o v raw : represents st vs -> nth_error (st_objects st) i = Some (Some o) -> rep o v raw ->
  metadata_of st o = Ok (metadata_with v raw).
Proof. intros H Hi R. unfold metadata_of. rewrite (view_shows st vs i o v raw H Hi R). cbn [obind]. rewrite (rep_edges _ _ _ R), (rep_crs_type _ _ _ R). reflexivity. Qed.
Lemma crs_shows junk st vs i o v raw : represents st vs -> nth_error (st_objects st) i = Some (Some o) -> rep o v raw -> crs junk st o = Ok (v_crs v).
Proof.
  intros H Hi R. unfold crs. rewrite (view_shows st vs i o v raw H Hi R). cbn [obind]. rewrite unescape_null. cbn [obind].
  remember (Z.of_nat (length (unescape_text raw))) as n.
  destruct (unescape_fills raw (malloc junk n) n) as (o' & E1 & Hf); [rewrite malloc_length; lia|]. change (@Some (list N)) with (@Some bytes) in E1. rewrite E1. cbn [obind or_ub].
  assert (El : length (malloc junk n) = length (unescape_text raw)) by (rewrite malloc_length; lia).
  subst n. apply filled_exact in Hf; [|exact El]. rewrite Hf, <- told_text, (rep_told _ _ _ R). reflexivity.
Qed.
Lemma text_shows junk st vs i o v raw : represents st vs -> nth_error (st_objects st) i = Some (Some o) -> rep o v raw ->
  extension_metadata junk st o = Ok (serialized (metadata_with v raw)).
Proof.
  intros H Hi R. unfold extension_metadata. rewrite (metadata_shows st vs i o v raw H Hi R). cbn [obind].
  set (m := metadata_with v raw). assert (Hs : Z.of_nat (length (serialized m)) = serialized_size m) by (apply carriable_size; exact (rep_carriable _ _ _ R)).
  destruct (serialize_sized m [] 0 Hs) as (o0 & -> & _); [cbn; lia|]. cbn [obind].
  destruct (serialize_sized m (malloc junk (Z.of_nat (length (serialized m)))) (Z.of_nat (length (serialized m))) Hs) as (o1 & -> & Hf);
    [rewrite malloc_length; lia|]. cbn [obind]. rewrite Z.leb_refl in Hf. f_equal.
  apply filled_exact in Hf; [exact Hf|]. rewrite malloc_length, Nat2Z.id. reflexivity.
Qed.
Lemma text_read v raw o : rep o v raw -> string_metadata (serialized (metadata_with v raw)) = Ok (kept (metadata_with v raw)).
Proof. intros R. unfold string_metadata. rewrite kept_read; [reflexivity | exact (rep_known _ _ _ R) | exact (rep_carriable _ _ _ R) | lia]. Qed.

(** ** New objects *)
Lemma built_rep t m b : exists_type t -> known m -> (m_crs_type m = CRS_NONE \/ carriable (m_crs m)) ->
  Z.of_nat (length (crs_text (m_crs m))) <= 2000000002 -> rep (built t m b) (value_of_metadata t m) (m_crs m).
Proof.
  intros He Hk Hc Hl. unfold built. destruct (parts t) as [[g d] c] eqn:Ep. constructor; cbn; try reflexivity; try assumption; [symmetry; exact Ep|].
  right. split; [reflexivity | apply firstn_all].
Qed.
Lemma built_says past fuel text t m b : exists_type t -> moderate text -> metadata_view_init past fuel text = Ok m ->
  rep (built t m b) (value_of_metadata t m) (m_crs m).
Proof.
  intros He Hm H. destruct (view_init_sound _ _ _ _ H) as [Hk Hc]. apply built_rep; [exact He | exact Hk | |].
  - destruct Hc as [Hc|Hc]; [left; exact Hc | right; right; exact Hc].
  - apply view_crs_length in H. pose proof (crs_text_length (m_crs m)). unfold moderate in Hm. lia.
Qed.
Lemma kept_value v raw o t : rep o v raw -> value_of_metadata t (kept (metadata_with v raw)) = retyped v t.
Proof.
  intros R. unfold value_of_metadata, kept, retyped, metadata_with. cbn [m_edges m_crs_type m_crs]. f_equal.
  destruct (Z.eqb_spec (v_crs_type v) CRS_NONE) as [E|E]; [reflexivity|].
  destruct (rep_carriable _ _ _ R) as [Hc|Hc]; [contradiction|]. rewrite kept_told by exact Hc. exact (rep_told _ _ _ R).
Qed.
Lemma built_kept v raw o t b : exists_type t -> rep o v raw -> exists raw', rep (built t (kept (metadata_with v raw)) b) (retyped v t) raw'.
Proof.
  intros He R. rewrite <- (kept_value v raw o t R). eexists. apply built_rep; [exact He | exact (rep_known _ _ _ R) | |].
  - cbn [kept m_crs_type m_crs metadata_with]. destruct (rep_carriable _ _ _ R) as [Hc|Hc]; [left; exact Hc|].
    destruct (v_crs_type v =? CRS_NONE) eqn:E; [left; apply Z.eqb_eq; exact E | right; apply kept_carriable; exact Hc].
  - cbn [kept m_crs_type m_crs metadata_with]. destruct (Z.eqb_spec (v_crs_type v) CRS_NONE) as [E|E]; [cbn; lia|].
    destruct (rep_carriable _ _ _ R) as [Hc|Hc]; [contradiction|]. rewrite crs_text_again by exact Hc. exact (rep_length _ _ _ R).
Qed.
Lemma copy_rep o v raw b : rep o v raw -> rep (copy_object o b) v raw.
Proof.
  intros R. destruct R. constructor; cbn; try assumption. destruct rep_view0 as [H|[_ H]]; [left; exact H | right; split; [reflexivity | exact H]].
Qed.
Lemma nothing_rep o : o_type o = 0 -> o_geometry o = 0 -> o_dims o = 0 -> o_coords o = 0 -> o_edges o = 0 -> o_crs_type o = 0 -> o_size o = 0 -> rep o no_value [].
Proof.
  intros H1 H2 H3 H4 H5 H6 H7. constructor; cbn; rewrite ?H2, ?H3, ?H4; try reflexivity; try assumption; try lia; try exact I.
  all: unfold EDGE_PLANAR, CRS_NONE; first [lia | left; reflexivity].
Qed.
Lemma wgs84_loose : loose_crs crs_wgs84.
Proof.
  assert (H : metadata_view_init None 1300 ($"{""crs"":" ++ crs_wgs84 ++ $"}") = Ok (Metadata EDGE_PLANAR CRS_UNKNOWN crs_wgs84)) by (vm_compute; reflexivity).
  apply view_init_sound in H as [_ [H|H]]; [discriminate H | exact H].
Qed.
Lemma enumerators t g d c : type_exists t -> parts_of t = (g, d, c) -> geometry_enumerator g /\ 0 <= d <= 4 /\ 0 <= c <= 2.
Proof.
  intros He E. unfold geometry_enumerator. destruct t as [[k d' l|e w]|]; cbn [parts_of parts] in E; injection E as <- <- <-.
  - destruct k, d', l; cbn; lia.
  - lia.
  - lia.
Qed.
Lemma rep_changed o v raw b m crs : rep o v raw -> known m -> (m_crs_type m = CRS_NONE \/ carriable (m_crs m)) ->
  Z.of_nat (length (crs_text (m_crs m))) <= 2000000002 -> told (m_crs m) = crs ->
  rep (construct (o_type o) (o_geometry o) (o_dims o) (o_coords o) m b) (Value (v_type v) (m_edges m) (m_crs_type m) crs) (m_crs m).
Proof.
  intros R Hk Hc Hl Ht. destruct R. constructor; cbn; try assumption; try reflexivity. right. split; [reflexivity | apply firstn_all].
Qed.

Section Making.
  Variable junk : nat -> N.
  Variable st : store.
  Variable vs : list (option value).
  Hypothesis H : represents st vs.
  Definition outcome_is (r : option value) (x : outcome object) (b : nat) : Prop :=
    match r with
    | Some v => exists o raw, x = Ok o /\ rep o v raw /\ o_buffer o = b
    | None => exists c, x = Err c
    end.
  Lemma built_buffer t m b : o_buffer (built t m b) = b.
  Proof. unfold built. destruct (parts t) as [[g d] c]. reflexivity. Qed.
  Lemma recomposes i o v raw g d c r b : nth_error (st_objects st) i = Some (Some o) -> rep o v raw ->
    geometry_enumerator g -> 0 <= d <= 4 -> 0 <= c <= 2 -> recomposed v g d c r ->
    outcome_is r (do text <- extension_metadata junk st o; make_from_parts g d c text b) b.
  Proof.
    intros Hi R Hg Hd Hc Hr. rewrite (text_shows junk st vs i o v raw H Hi R). cbn [obind].
    destruct (parts_made g d c Hg Hd Hc) as [(t & Ht & E)|[Hn E]]; rewrite E.
    - rewrite (text_read v raw o R). cbn [obind]. destruct Hr as [t' Ht'|Hn]; [|destruct (Hn t Ht)].
      rewrite (composed_unique g d c t' t Ht' Ht). destruct Ht as (k & d' & l & -> & He & _).
      destruct (built_kept v raw o (Native k d' l) b He R) as [raw' R']. eexists. exists raw'. split; [reflexivity|]. split; [exact R' | apply built_buffer].
    - destruct Hr as [t' Ht'|_]; [destruct (Hn t' Ht')|]. exists THROWN. reflexivity.
  Qed.
  Lemma string_refused_err text : string_refused text -> string_metadata text = Err THROWN.
  Proof. intros E. unfold string_metadata. rewrite E. reflexivity. Qed.

  Lemma make_is k r b : proper_maker k -> makes vs k r -> outcome_is r (make junk st k b) b.
  Proof.
    intros Hp Hm. destruct Hm; cbn [make proper_maker] in *.
    - eexists. eexists. split; [reflexivity|]. split; [apply nothing_rep; reflexivity | reflexivity].
    - destruct Hp as (Hg & Hd & Hc & Ht). destruct (parts_made g d c Hg Hd Hc) as [(t' & Ht' & E)|[Hn _]]; [|destruct (Hn t H0)].
      rewrite E. rewrite (composed_unique g d c t t' H0 Ht') in *. unfold string_metadata. rewrite H1. cbn [throw_not_ok obind].
      destruct Ht' as (k & d' & l & -> & He & _). eexists. eexists. split; [reflexivity|].
      split; [exact (built_says _ _ _ _ _ b He Ht H1) | apply built_buffer].
    - destruct Hp as (Hg & Hd & Hc & Ht). exists THROWN. destruct (parts_made g d c Hg Hd Hc) as [(t' & Ht' & E)|[Hn E]]; rewrite E; [|reflexivity].
      destruct H0 as [H0|H0]; [destruct (H0 t' Ht')|]. rewrite (string_refused_err _ H0). reflexivity.
    - destruct Hp as (_ & Ht). rewrite from_type_made by assumption. unfold string_metadata. rewrite H1. cbn [throw_not_ok obind].
      eexists. eexists. split; [reflexivity|]. split; [exact (built_says _ _ _ _ _ b H0 Ht H1) | apply built_buffer].
    - destruct Hp as (Hz & Ht). exists THROWN. destruct Hz as [->|(t & He & ->)]; [reflexivity|]. rewrite from_type_made by exact He.
      destruct H0 as [H0|H0]; [destruct (H0 t He eq_refl)|]. rewrite (string_refused_err _ H0). reflexivity.
    - destruct (schema_made s t text b H0) as (past & ->). rewrite H1 by lia. cbn [throw_not_ok obind]. eexists. eexists. split; [reflexivity|].
      split; [|apply built_buffer]. assert (He : exists_type t) by (destruct H0 as (_ & _ & _ & He & _); exact He).
      exact (built_says None (S (length (text_of text))) _ _ _ b He (Hp t text H0) (H1 _ _ (Nat.lt_succ_diag_r _))).
    - exists THROWN. destruct H0 as [H0|(t & text & H0 & H1)].
      + unfold make_from_schema. rewrite (not_geoarrow_view s H0). reflexivity.
      + destruct (schema_made s t text b H0) as (past & ->). rewrite H1 by lia. reflexivity.
    - rewrite storage_made by assumption. unfold string_metadata. rewrite H3. cbn [throw_not_ok obind].
      eexists. eexists. split; [reflexivity|]. split; [exact (built_says _ _ _ _ _ b H1 Hp H3) | apply built_buffer].
    - exists THROWN. destruct H2 as [H2|H2]; [apply storage_not_made; assumption|].
      unfold make_from_storage. destruct (from_storage_spec s _ _ H0 (name_views name)) as (Q & _).
      destruct Q as [[w E]|E]; rewrite E; cbn [throw_not_ok obind]; [|reflexivity]. rewrite (string_refused_err _ H2). reflexivity.
    - destruct (represented st vs i v H H0) as (o & raw & -> & R & _). cbn [obind]. exists (copy_object o b), raw.
      split; [reflexivity|]. split; [apply copy_rep; exact R | reflexivity].
    - destruct (represented st vs i v H H0) as (o' & raw & -> & R & Hi). cbn [obind]. unfold with_geometry_type.
      pose proof (rep_parts _ _ _ R) as P. rewrite H1 in P. injection P as E1 E2 E3. rewrite E2, E3.
      destruct (enumerators _ _ _ _ (rep_exists _ _ _ R) H1) as (_ & Hd & Hc). exact (recomposes i o' v raw g d c o b Hi R Hp Hd Hc H2).
    - destruct (represented st vs i v H H0) as (o' & raw & -> & R & Hi). cbn [obind].
      pose proof (rep_parts _ _ _ R) as P. rewrite H1 in P. injection P as E1 E2 E3. rewrite E1, E2.
      destruct (enumerators _ _ _ _ (rep_exists _ _ _ R) H1) as (Hg & Hd & _). exact (recomposes i o' v raw g d c o b Hi R Hg Hd Hp H2).
    - destruct (represented st vs i v H H0) as (o' & raw & -> & R & Hi). cbn [obind].
      pose proof (rep_parts _ _ _ R) as P. rewrite H1 in P. injection P as E1 E2 E3. rewrite E1, E3.
      destruct (enumerators _ _ _ _ (rep_exists _ _ _ R) H1) as (Hg & _ & Hc). exact (recomposes i o' v raw g d c o b Hi R Hg Hp Hc H2).
    - destruct (represented st vs i v H H0) as (o & raw & -> & R & _). cbn [obind]. eexists. exists raw. split; [reflexivity|]. split; [|reflexivity].
      apply (copy_rep _ _ _ b) in R. destruct R. constructor; cbn in *; try assumption; try reflexivity. split; [exact Hp | exact (proj2 rep_known0)].
    - destruct (represented st vs i v H H0) as (o & raw & -> & R & _). cbn [obind]. eexists. exists crs. split; [reflexivity|]. split; [|reflexivity].
      destruct Hp as (Hz & Hc & Hl).
      apply (rep_changed o v raw b (Metadata (o_edges o) z crs) (told crs)) in R as R'; [|split; [rewrite (rep_edges _ _ _ R); exact (proj1 (rep_known _ _ _ R)) | exact Hz] | exact Hc | |reflexivity].
      + cbn [m_edges m_crs_type m_crs] in R'. rewrite (rep_edges _ _ _ R) in R' at 2. exact R'.
      + cbn [m_crs]. pose proof (crs_text_length crs). unfold moderate in Hl. lia.
    - destruct (represented st vs i v H H0) as (o & raw & -> & R & _). cbn [obind]. eexists. exists crs_wgs84. split; [reflexivity|]. split; [|reflexivity].
      apply (rep_changed o v raw b (Metadata (o_edges o) CRS_PROJJSON crs_wgs84) crs_wgs84) in R as R';
        [|split; [rewrite (rep_edges _ _ _ R); exact (proj1 (rep_known _ _ _ R)) | cbn; unfold CRS_PROJJSON; lia] | right; right; exact wgs84_loose | |].
      + cbn [m_edges m_crs_type m_crs] in R'. rewrite (rep_edges _ _ _ R) in R' at 2. exact R'.
      + vm_compute. discriminate.
      + vm_compute. reflexivity.
    - destruct (represented st vs i v H H0) as (o' & raw & -> & R & Hi). cbn [obind]. unfold with_geometry_type.
      pose proof (rep_parts _ _ _ R) as P. rewrite H1 in P. injection P as E1 E2 E3. rewrite E1, E2, E3.
      destruct (enumerators _ _ _ _ (rep_exists _ _ _ R) H1) as (_ & Hd & Hc).
      assert (Hg : geometry_enumerator g') by (unfold simple_of in H2; unfold geometry_enumerator; repeat destruct (_ =? _); try discriminate H2; injection H2 as <-; lia).
      pose proof (recomposes i o' v raw g' d c o b Hi R Hg Hd Hc H3) as Hres. unfold simple_of in H2. unfold GT_POINT, GT_MULTIPOINT, GT_LINESTRING, GT_MULTILINESTRING, GT_POLYGON, GT_MULTIPOLYGON.
      destruct (g =? 1); cbn [orb]; [injection H2 as <-; exact Hres|]. destruct (g =? 4); cbn [orb]; [injection H2 as <-; exact Hres|].
      destruct (g =? 2); cbn [orb]; [injection H2 as <-; exact Hres|]. destruct (g =? 5); cbn [orb]; [injection H2 as <-; exact Hres|].
      destruct (g =? 3); cbn [orb]; [injection H2 as <-; exact Hres|]. destruct (g =? 6); cbn [orb]; [injection H2 as <-; exact Hres|]. discriminate H2.
    - destruct (represented st vs i v H H0) as (o' & raw & -> & R & Hi). cbn [obind].
      pose proof (rep_parts _ _ _ R) as P. rewrite H1 in P. injection P as E1 E2 E3. rewrite E1. exists THROWN.
      unfold simple_of in H2. unfold GT_POINT, GT_MULTIPOINT, GT_LINESTRING, GT_MULTILINESTRING, GT_POLYGON, GT_MULTIPOLYGON.
      destruct (g =? 1); [discriminate|]. destruct (g =? 4); [discriminate|]. destruct (g =? 2); [discriminate|]. destruct (g =? 5); [discriminate|].
      destruct (g =? 3); [discriminate|]. destruct (g =? 6); [discriminate|]. reflexivity.
    - destruct (represented st vs i v H H0) as (o' & raw & -> & R & Hi). cbn [obind]. unfold with_geometry_type.
      pose proof (rep_parts _ _ _ R) as P. rewrite H1 in P. injection P as E1 E2 E3. rewrite E1, E2, E3.
      destruct (enumerators _ _ _ _ (rep_exists _ _ _ R) H1) as (_ & Hd & Hc).
      assert (Hg : geometry_enumerator g') by (unfold multi_of in H2; unfold geometry_enumerator; repeat destruct (_ =? _); try discriminate H2; injection H2 as <-; lia).
      pose proof (recomposes i o' v raw g' d c o b Hi R Hg Hd Hc H3) as Hres. unfold multi_of in H2. unfold GT_POINT, GT_MULTIPOINT, GT_LINESTRING, GT_MULTILINESTRING, GT_POLYGON, GT_MULTIPOLYGON.
      destruct (g =? 1); cbn [orb]; [injection H2 as <-; exact Hres|]. destruct (g =? 4); cbn [orb]; [injection H2 as <-; exact Hres|].
      destruct (g =? 2); cbn [orb]; [injection H2 as <-; exact Hres|]. destruct (g =? 5); cbn [orb]; [injection H2 as <-; exact Hres|].
      destruct (g =? 3); cbn [orb]; [injection H2 as <-; exact Hres|]. destruct (g =? 6); cbn [orb]; [injection H2 as <-; exact Hres|]. discriminate H2.
    - destruct (represented st vs i v H H0) as (o' & raw & -> & R & Hi). cbn [obind].
      pose proof (rep_parts _ _ _ R) as P. rewrite H1 in P. injection P as E1 E2 E3. rewrite E1. exists THROWN.
      unfold multi_of in H2. unfold GT_POINT, GT_MULTIPOINT, GT_LINESTRING, GT_MULTILINESTRING, GT_POLYGON, GT_MULTIPOLYGON.
      destruct (g =? 1); [discriminate|]. destruct (g =? 4); [discriminate|]. destruct (g =? 2); [discriminate|]. destruct (g =? 5); [discriminate|].
      destruct (g =? 3); [discriminate|]. destruct (g =? 6); [discriminate|]. reflexivity.
  Qed.
End Making.

(** ** Stores *)
Lemma buffers_app a b : buffers (a ++ b) = buffers a ++ buffers b.
Proof. unfold buffers. apply flat_map_app. Qed.
Lemma replaced_split {A} (l : list A) i x : nth_error l i <> None -> exists a y b, l = a ++ y :: b /\ length a = i /\ replaced l i x = a ++ x :: b.
Proof.
  intros Hn. destruct (nth_error l i) as [y|] eqn:E; [|contradiction]. apply nth_error_split in E as (a & b & -> & El). exists a, y, b.
  split; [reflexivity|]. split; [exact El|]. unfold replaced. rewrite firstn_app, firstn_all2 by lia. rewrite El, Nat.sub_diag. cbn [firstn]. rewrite app_nil_r.
  rewrite skipn_app, skipn_all2 by lia. replace (S i - length a)%nat with 1%nat by lia. reflexivity.
Qed.
Lemma fresh_buffers st vs : represents st vs -> ~ In (st_fresh st) (buffers (st_objects st)).
Proof. intros R Hi. pose proof (named _ _ R) as F. rewrite Forall_forall in F. apply F in Hi. lia. Qed.
Lemma represents_add st vs o v raw : represents st vs -> rep o v raw -> o_buffer o = st_fresh st -> represents (add_object st o) (vs ++ [Some v]).
Proof.
  intros H R E. constructor; cbn [add_object st_objects st_fresh].
  - apply Forall2_app; [exact (reps _ _ H)|]. constructor; [exists raw; exact R | constructor].
  - rewrite buffers_app. cbn [buffers flat_map app]. rewrite E.
    apply (Permutation_NoDup (Permutation_cons_append _ _)). constructor; [exact (fresh_buffers st vs H) | exact (distinct _ _ H)].
  - rewrite buffers_app. apply Forall_app. split; [eapply Forall_impl; [|exact (named _ _ H)]; cbn; lia|]. cbn [buffers flat_map app]. constructor; [lia | constructor].
Qed.
Lemma app_inj_length {A} (a a' b b' : list A) : length a = length a' -> a ++ b = a' ++ b' -> a = a' /\ b = b'.
Proof.
  revert a'. induction a as [|x a IH]; intros [|x' a'] L E; cbn in *; try discriminate; [auto|]. injection E as -> E. injection L as L.
  destruct (IH a' L E) as [-> ->]. auto.
Qed.
Lemma represents_put st vs i x y u f : represents st vs -> value_at vs i u -> rep_slot x y ->
  (forall o, x = Some o -> o_buffer o = st_fresh st) -> (st_fresh st <= f)%nat -> (x = None \/ st_fresh st < f)%nat ->
  represents (Store (st_objects (put_object st i x)) f) (replaced vs i y).
Proof.
  intros H Hu R E Hf Hx. destruct (represented st vs i u H Hu) as (o0 & raw0 & _ & _ & Hi).
  change (st_objects (put_object st i x)) with (replaced (st_objects st) i x).
  destruct (replaced_split (st_objects st) i x) as (a & z & b & Eo & Ea & ->); [congruence|].
  destruct (replaced_split vs i y) as (a' & z' & b' & Ev & Ea' & ->); [unfold value_at in Hu; congruence|].
  pose proof (reps _ _ H) as F. pose proof (distinct _ _ H) as D. pose proof (named _ _ H) as N. pose proof (fresh_buffers st vs H) as Hn.
  rewrite Eo, ?Ev in *. apply Forall2_app_inv_l in F as (a1 & b1 & F1 & F2 & E1). inversion F2 as [|? z1 ? b2 Fz Fb E2 E3]; subst.
  assert (a' = a1 /\ z' :: b' = z1 :: b2) as [-> E4].
  { apply app_inj_length; [|exact E1]. apply Forall2_length in F1. lia. }
  injection E4 as -> ->. rewrite nth_error_app2, Nat.sub_diag in Hi by lia. injection Hi as ->.
  rewrite buffers_app in D, N, Hn. cbn [buffers flat_map app] in D, N, Hn. fold (buffers b) in D, N, Hn.
  constructor; cbn [st_objects st_fresh].
  - apply Forall2_app; [exact F1|]. constructor; [exact R | exact Fb].
  - rewrite buffers_app. cbn [buffers flat_map]. fold (buffers b). destruct x as [o|]; cbn [app].
    + rewrite (E o eq_refl). apply (Permutation_NoDup (Permutation_middle _ _ _)). constructor; [|exact (NoDup_remove_1 _ _ _ D)].
      intros Hin. apply Hn. apply in_app_or in Hin as [Hin|Hin]; apply in_or_app; [left; exact Hin | right; right; exact Hin].
    + exact (NoDup_remove_1 _ _ _ D).
  - rewrite buffers_app. apply Forall_app in N as [N1 N2]. apply Forall_cons_iff in N2 as [_ N2]. cbn [buffers flat_map]. fold (buffers b).
    apply Forall_app. split; [eapply Forall_impl; [|exact N1]; cbn; lia|]. apply Forall_app. split; [|eapply Forall_impl; [|exact N2]; cbn; lia].
    destruct x as [o|]; [|constructor]. constructor; [|constructor]. rewrite (E o eq_refl). destruct Hx as [Hx|Hx]; [discriminate Hx | exact Hx].
Qed.
Lemma replaced_at {A} (l : list A) i x j : nth_error l i <> None ->
  nth_error (replaced l i x) j = if Nat.eqb j i then Some x else nth_error l j.
Proof.
  intros Hn. destruct (replaced_split l i x Hn) as (a & y & b & -> & <- & ->). destruct (Nat.eqb_spec j (length a)) as [->|Hj].
  - rewrite nth_error_app2, Nat.sub_diag by lia. reflexivity.
  - destruct (Nat.lt_ge_cases j (length a)); [rewrite !nth_error_app1 by lia; reflexivity|].
    rewrite !nth_error_app2 by lia. destruct (j - length a)%nat eqn:E; [lia | reflexivity].
Qed.
Lemma value_replaced vs i j u v w : value_at vs i u -> value_at vs j w -> exists w', value_at (replaced vs i (Some v)) j w'.
Proof.
  unfold value_at. intros Hi Hj. rewrite replaced_at by congruence. destruct (Nat.eqb j i); [exists v; reflexivity | exists w; exact Hj].
Qed.

Section Running.
  Variable junk : nat -> N.
  Variable leftover : nat -> bytes.
  Lemma moved_rep b : rep (moved_object leftover b) no_value [].
  Proof. apply nothing_rep; reflexivity. Qed.
  Lemma step_is st vs p t vs' : represents st vs -> proper p -> steps vs p t vs' ->
    exists st', step junk leftover st p = Ok (st', t) /\ represents st' vs'.
  Proof.
    intros H Hp Hs. destruct Hs as [vs k v Hm|vs k Hm|vs i v Hi|vs i j u v Hi Hj|vs i j u v Hi Hj|vs i u Hi]; cbn [step proper] in *.
    - pose proof (make_is junk st vs H k (Some v) (st_fresh st) Hp Hm) as (o & raw & -> & R & E). eexists. split; [reflexivity|].
      exact (represents_add st vs o v raw H R E).
    - pose proof (make_is junk st vs H k None (st_fresh st) Hp Hm) as (c & ->). eexists. split; [reflexivity | exact H].
    - destruct (represented st vs i v H Hi) as (o & raw & -> & R & _). cbn [obind]. eexists. split; [reflexivity|].
      assert (H1 : represents (add_object st (copy_object o (st_fresh st))) (vs ++ [Some v])).
      { apply (represents_add st vs _ v raw H); [apply copy_rep; exact R | reflexivity]. }
      refine (represents_put _ _ i _ _ v _ H1 _ _ _ _ _).
      + unfold value_at. rewrite nth_error_app1; [exact Hi|]. apply nth_error_Some. unfold value_at in Hi. congruence.
      + exists []. apply moved_rep.
      + intros o' [= <-]. reflexivity.
      + cbn. lia.
      + right. cbn. lia.
    - destruct (represented st vs i u H Hi) as (o0 & raw0 & -> & _ & _). destruct (represented st vs j v H Hj) as (o & raw & -> & R & _). cbn [obind].
      eexists. split; [reflexivity|]. refine (represents_put _ _ i _ _ u _ H Hi _ _ _ _).
      + exists raw. apply copy_rep. exact R.
      + intros o' [= <-]. reflexivity.
      + cbn. lia.
      + right. cbn. lia.
    - destruct (represented st vs i u H Hi) as (o0 & raw0 & -> & _ & _). destruct (represented st vs j v H Hj) as (o & raw & -> & R & _). cbn [obind].
      eexists. split; [reflexivity|].
      assert (H1 : represents (next (put_object st i (Some (copy_object o (st_fresh st))))) (replaced vs i (Some v))).
      { refine (represents_put _ _ i _ _ u _ H Hi _ _ _ _); [exists raw; apply copy_rep; exact R | intros o' [= <-]; reflexivity | cbn; lia | right; cbn; lia]. }
      destruct (value_replaced vs i j u v v Hi Hj) as [w' Hw].
      refine (represents_put _ _ j _ _ w' _ H1 Hw _ _ _ _); [exists []; apply moved_rep | intros o' [= <-]; reflexivity | cbn; lia | right; cbn; lia].
    - destruct (represented st vs i u H Hi) as (o0 & raw0 & -> & _ & _). cbn [obind]. eexists. split; [reflexivity|].
      refine (represents_put _ _ i None None u (st_fresh st) H Hi I _ _ _); [discriminate | lia | left; reflexivity].
  Qed.
  Lemma run_is vs ps ts vs' : history vs ps ts vs' -> Forall proper ps -> forall st, represents st vs ->
    exists st', run junk leftover st ps = Ok (st', ts) /\ represents st' vs'.
  Proof.
    induction 1 as [vs|vs p t vs1 ps ts vs2 Hs Hh IH]; intros Hp st H; cbn [run]; [exists st; auto|].
    apply Forall_cons_iff in Hp as [Hp Hps]. destruct (step_is st vs p t vs1 H Hp Hs) as (st1 & -> & H1). cbn [obind].
    destruct (IH Hps st1 H1) as (st2 & -> & H2). cbn [obind]. exists st2. auto.
  Qed.
End Running.

(** ** Observations *)
Lemma clipped_shortened max b : 4 <= max < 2 ^ 64 -> shortened b max = clipped max b.
Proof.
  intros Hm. unfold shortened, clipped. rewrite Z.mod_small by lia.
  destruct (Z.leb_spec max (Z.of_nat (length b))), (Z.ltb_spec (Z.of_nat (length b)) max); try lia; reflexivity.
Qed.
Lemma string_shortened junk st vs i o v raw max : represents st vs -> nth_error (st_objects st) i = Some (Some o) -> rep o v raw ->
  to_string junk st o max =
    Ok (match v_type v with
        | None => $"<Uninitialized GeometryDataType>"
        | Some t => flat_map (fun m => m ++ $" ") (modifiers v t) ++ type_name t ++ dim_suffix t ++ shortened (crs_label v) max
        end).
Proof.
  intros H Hi R. unfold to_string. rewrite (rep_type _ _ _ R). destruct (v_type v) as [t|] eqn:Et; [|reflexivity]. cbn [id_of].
  rewrite type_initialised. unfold extension_name. rewrite (rep_type _ _ _ R), Et. cbn [id_of].
  pose proof (rep_exists _ _ _ R) as He. rewrite Et in He. rewrite (name_from_type t He). cbn [obind].
  pose proof (rep_parts _ _ _ R) as P. rewrite Et in P. cbn [parts_of] in P. rewrite (rep_edges _ _ _ R), (rep_crs_type _ _ _ R), (crs_shows junk st vs i o v raw H Hi R).
  cbn [obind].
  assert (Ec : forall (k : bytes -> outcome bytes), (do suffix <- (if v_crs_type v =? CRS_NONE then Ok [] else if v_crs_type v =? CRS_UNKNOWN then Ok (v_crs v)
      else Ok (crs_type_string (v_crs_type v) ++ $":" ++ v_crs v)); k (match suffix with [] => [] | _ :: _ => $"<" ++ suffix ++ $">" end)) = k (crs_label v)).
  { intros k. unfold crs_label. destruct (v_crs_type v =? CRS_NONE); cbn [obind]; [reflexivity|].
    destruct (v_crs_type v =? CRS_UNKNOWN); cbn [obind]; [reflexivity|].
    destruct (crs_type_string (v_crs_type v) ++ $":" ++ v_crs v) eqn:E; [destruct (crs_type_string (v_crs_type v)); discriminate E|].
    rewrite <- E, <- !app_assoc. reflexivity. }
  rewrite (Ec (fun x => Ok (_ ++ type_name t ++ _ ++ shortened x max))). f_equal.
  unfold modifiers, dim_suffix.
  assert (Em : (if negb (v_edges v =? EDGE_PLANAR) then [edge_type_string (v_edges v)] else []) = (if v_edges v =? EDGE_PLANAR then [] else [edge_type_string (v_edges v)]))
    by (destruct (v_edges v =? EDGE_PLANAR); reflexivity).
  rewrite Em. destruct t as [k d l|[] []]; cbn [parts] in P; injection P as P1 P2 P3; rewrite P2, P3.
  - destruct k, d, l; try reflexivity; specialize (He eq_refl); discriminate He.
  - reflexivity.
  - reflexivity.
  - reflexivity.
  - reflexivity.
  - reflexivity.
  - reflexivity.
Qed.

Lemma string_shows junk st vs i o v raw max : represents st vs -> nth_error (st_objects st) i = Some (Some o) -> rep o v raw -> 4 <= max < 2 ^ 64 ->
  to_string junk st o max = Ok (shown max v).
Proof.
  intros H Hi R Hm. rewrite (string_shortened junk st vs i o v raw max H Hi R). unfold shown. destruct (v_type v); [|reflexivity].
  rewrite clipped_shortened by exact Hm. reflexivity.
Qed.

Lemma looks junk st vs i v : represents st vs -> value_at vs i v -> looks_like junk st i v.
Proof.
  intros H Hv. destruct (represented st vs i v H Hv) as (o & raw & E & R & Hi). exists o. split; [exact E|].
  split; [exact (rep_type _ _ _ R)|]. split; [exact (rep_parts _ _ _ R)|]. split; [exact (rep_edges _ _ _ R)|]. split; [exact (rep_crs_type _ _ _ R)|].
  split; [exact (crs_shows junk st vs i o v raw H Hi R)|]. split.
  { unfold num_dimensions. pose proof (rep_parts _ _ _ R) as P. destruct (v_type v) as [[k d l|e w]|]; cbn [parts_of parts] in P; injection P as _ -> _; [|reflexivity|reflexivity].
    destruct d; reflexivity. }
  split; [intros max Hm; exact (string_shows junk st vs i o v raw max H Hi R Hm)|]. split.
  { unfold extension_name. rewrite (rep_type _ _ _ R). pose proof (rep_exists _ _ _ R) as He. destruct (v_type v) as [t|]; [|reflexivity].
    cbn [id_of]. rewrite (name_from_type t He). reflexivity. }
  split.
  { exists (serialized (metadata_with v raw)), (kept (metadata_with v raw)). split; [exact (text_shows junk st vs i o v raw H Hi R)|]. split.
    - unfold string_says. apply kept_read; [exact (rep_known _ _ _ R) | exact (rep_carriable _ _ _ R) | lia].
    - intros t. exact (kept_value v raw o t R). }
  pose proof (rep_exists _ _ _ R) as He. unfold init_schema, init_storage_schema. rewrite (rep_type _ _ _ R). destruct (v_type v) as [t|] eqn:Et; [|split; reflexivity].
  cbn [id_of type_exists] in *. split.
  - destruct (created t He) as (s & -> & W & S & Hh). cbn [throw_not_ok obind]. rewrite (metadata_shows st vs i o v raw H Hi R). cbn [obind].
    set (m := metadata_with v raw). assert (Hs : Z.of_nat (length (serialized m)) = serialized_size m) by (apply carriable_size; exact (rep_carriable _ _ _ R)).
    unfold schema_set_geoarrow_metadata. rewrite Hs, Z.eqb_refl. cbn [negb].
    destruct (set_value s _ (serialized m) Hh) as (s' & E' & U); [cbn; lia | apply serialized_bound; exact (rep_length _ _ _ R)|].
    rewrite E'. exists s'. split; [reflexivity|]. intros vs'. rewrite <- (kept_value v raw o t R). apply (makes_schema vs' s' t (Some (serialized m))).
    + exact (updated_schema s t _ (serialized m) s' W Hh He S eq_refl U).
    + intros past fuel Hf. apply kept_read; [exact (rep_known _ _ _ R) | exact (rep_carriable _ _ _ R) | exact Hf].
  - destruct (init_created t He) as (s & -> & F & S). exists s. split; [reflexivity|]. split; [|exact S].
    destruct F as (f & cs & -> & Hc & Hf). apply (wf_simple f None None 2 cs []); auto using holds_none.
Qed.

Lemma values_are junk leftover ps ts vs : history [] ps ts vs -> Forall proper ps ->
  exists st, run junk leftover empty_store ps = Ok (st, ts) /\ length (st_objects st) = length vs /\
    forall i v, value_at vs i v -> looks_like junk st i v.
Proof.
  intros Hh Hp. destruct (run_is junk leftover [] ps ts vs Hh Hp empty_store) as (st & E & R).
  - constructor; cbn; constructor.
  - exists st. split; [exact E|]. split; [eapply Forall2_length; exact (reps _ _ R)|]. intros i v. exact (looks junk st vs i v R).
Qed.

(** ** What the texts tell apart *)
Definition title (t : geo_type) (edges : Z) : bytes :=
  flat_map (fun m => m ++ $" ") (modifiers (Value (Some t) edges 0 []) t) ++ type_name t ++ dim_suffix t.
Lemma shown_title max v t : v_type v = Some t -> shown max v = title t (v_edges v) ++ clipped max (crs_label v).
Proof. intros E. unfold shown, title. rewrite E, <- !app_assoc. reflexivity. Qed.
Definition all_types : list geo_type :=
  flat_map (fun k => flat_map (fun d => map (Native k d) [Separate; Interleaved]) [XY; XYZ; XYM; XYZM])
    [KPoint; KLinestring; KPolygon; KMultipoint; KMultilinestring; KMultipolygon; KBox] ++
  flat_map (fun e => map (Serialized e) [Regular; Large; View]) [Wkb; Wkt].
Lemma in_all_types t : In t all_types.
Proof. destruct t as [[] [] []|[] []]; vm_compute; tauto. Qed.
Definition all_titled : list (geo_type * Z) := list_prod all_types [0; 1; 2; 3; 4; 5].
Definition title_of (p : geo_type * Z) : bytes := title (fst p) (snd p).
Lemma in_all_titled t e : 0 <= e <= 5 -> In (t, e) all_titled.
Proof. intros H. apply in_prod; [apply in_all_types|]. assert (e = 0 \/ e = 1 \/ e = 2 \/ e = 3 \/ e = 4 \/ e = 5) by lia. cbn [In]. intuition. Qed.
Fixpoint distinct_texts (l : list bytes) : bool :=
  match l with [] => true | x :: l => forallb (fun y => negb (same_text x y)) l && distinct_texts l end.
Lemma titles_distinct : distinct_texts (map title_of all_titled) = true.
Proof. vm_compute. reflexivity. Qed.
Lemma titles_plain : forallb (fun p => forallb (fun c => negb (c =? 60)%N) (title_of p) && negb (Nat.eqb (length (title_of p)) 0)) all_titled = true.
Proof. vm_compute. reflexivity. Qed.
Lemma distinct_inj {A} (f : A -> bytes) l : distinct_texts (map f l) = true -> forall a b, In a l -> In b l -> f a = f b -> a = b.
Proof.
  induction l as [|x l IH]; intros H a b Ha Hb E; [destruct Ha|]. cbn [map distinct_texts] in H. apply andb_prop in H as [H1 H2].
  rewrite forallb_forall in H1.
  assert (Hn : forall y, In y l -> f x <> f y).
  { intros y Hy Exy. specialize (H1 (f y) (in_map f l y Hy)). rewrite Exy, same_text_refl in H1. discriminate H1. }
  destruct Ha as [->|Ha], Hb as [->|Hb]; try reflexivity.
  - destruct (Hn b Hb E).
  - destruct (Hn a Ha (eq_sym E)).
  - exact (IH H2 a b Ha Hb E).
Qed.
Lemma title_inj t e t' e' : 0 <= e <= 5 -> 0 <= e' <= 5 -> title t e = title t' e' -> t = t' /\ e = e'.
Proof.
  intros H H' E. assert (Ep : (t, e) = (t', e')); [|injection Ep; auto].
  exact (distinct_inj title_of _ titles_distinct _ _ (in_all_titled t e H) (in_all_titled t' e' H') E).
Qed.
Lemma title_plain t e : 0 <= e <= 5 -> ~ In 60%N (title t e) /\ title t e <> [].
Proof.
  intros H. pose proof titles_plain as P. rewrite forallb_forall in P. specialize (P _ (in_all_titled t e H)). apply andb_prop in P as [P1 P2]. split.
  - intros Hi. rewrite forallb_forall in P1. specialize (P1 _ Hi). discriminate P1.
  - intros E. unfold title_of in P2. cbn [fst snd] in P2. rewrite E in P2. discriminate P2.
Qed.
(** Two texts without "<", each followed by nothing or by something that begins with it. *)
Lemma split_at (a a' b b' : bytes) : ~ In 60%N a -> ~ In 60%N a' -> (b = [] \/ hd 0%N b = 60%N) -> (b' = [] \/ hd 0%N b' = 60%N) ->
  a ++ b = a' ++ b' -> a = a' /\ b = b'.
Proof.
  revert a'. induction a as [|x a IH]; intros [|x' a'] Ha Ha' Hb Hb' E; cbn [app] in E.
  - auto.
  - exfalso. subst b. destruct Hb as [Hb|Hb]; [discriminate Hb|]. cbn in Hb. apply Ha'. left. exact Hb.
  - exfalso. subst b'. destruct Hb' as [Hb'|Hb']; [discriminate Hb'|]. cbn in Hb'. apply Ha. left. exact Hb'.
  - injection E as -> E. destruct (IH a') as [-> ->]; auto; intros Hi; [apply Ha | apply Ha']; right; exact Hi.
Qed.
Lemma label_starts v : crs_label v = [] \/ hd 0%N (crs_label v) = 60%N.
Proof.
  unfold crs_label. destruct (_ =? _); [left; reflexivity|]. destruct (_ =? _); [|right; reflexivity]. destruct (v_crs v); [left | right]; reflexivity.
Qed.
Lemma clipped_starts max b : 5 <= max -> (b = [] \/ hd 0%N b = 60%N) -> clipped max b = [] \/ hd 0%N (clipped max b) = 60%N.
Proof.
  intros Hm H. unfold clipped. destruct (Z.ltb_spec (Z.of_nat (length b)) max) as [Hl|Hl]; [exact H|]. right.
  destruct b as [|c b]; [cbn in Hl; lia|]. destruct H as [H|H]; [discriminate H|]. replace (Z.to_nat (max - 4)) with (S (Z.to_nat (max - 5))) by lia. exact H.
Qed.
Lemma shown_apart max v w : 5 <= max -> 0 <= v_edges v <= 5 -> 0 <= v_edges w <= 5 -> v_type v <> None -> v_type w <> None ->
  shown max v = shown max w -> v_type v = v_type w /\ v_edges v = v_edges w /\ clipped max (crs_label v) = clipped max (crs_label w).
Proof.
  intros Hm Hv Hw Nv Nw E. destruct (v_type v) as [t|] eqn:Ev; [|contradiction]. destruct (v_type w) as [u|] eqn:Ew; [|contradiction].
  rewrite (shown_title max v t Ev), (shown_title max w u Ew) in E.
  apply split_at in E as [E1 E2]; [|apply title_plain; assumption | apply title_plain; assumption | apply clipped_starts; [exact Hm | apply label_starts] |
    apply clipped_starts; [exact Hm | apply label_starts]].
  apply title_inj in E1 as [-> ->]; auto.
Qed.
Lemma shown_typed max v w t : 5 <= max -> 0 <= v_edges v <= 5 -> v_type v = Some t -> v_type w = None -> shown max v <> shown max w.
Proof.
  intros Hm Hv Ev Ew E. rewrite (shown_title max v t Ev) in E. unfold shown in E. rewrite Ew in E. destruct (title_plain t (v_edges v) Hv) as [H1 H2].
  destruct (title t (v_edges v)) as [|c r]; [contradiction|]. cbn in E. injection E as E _. apply H1. left. exact E.
Qed.
Lemma clipped_length max b : 4 <= max -> Z.of_nat (length (clipped max b)) <= max.
Proof.
  intros Hm. unfold clipped. destruct (Z.ltb_spec (Z.of_nat (length b)) max); [lia|]. rewrite app_length, firstn_length. change (length $"...>") with 4%nat. lia.
Qed.
Lemma label_inj v w : v_crs_type v = v_crs_type w -> v_crs_type v <> CRS_NONE -> crs_label v = crs_label w -> v_crs v = v_crs w.
Proof.
  intros Et Hn. unfold crs_label. rewrite <- Et. destruct (Z.eqb_spec (v_crs_type v) CRS_NONE) as [E|_]; [contradiction|].
  destruct (v_crs_type v =? CRS_UNKNOWN).
  - destruct (v_crs v) as [|a x] eqn:E1, (v_crs w) as [|b y] eqn:E2; try reflexivity; intros H; try discriminate H.
    rewrite <- E1, <- E2 in *. cbn [app] in H. injection H as H. apply app_inj_tail in H as [H _]. exact H.
  - intros H. cbn [app] in H. injection H as H. apply app_inv_head in H. injection H as H. apply app_inj_tail in H as [H _]. exact H.
Qed.
Lemma texts_apart junk leftover ps ts vs st i j v w oi oj max : history [] ps ts vs -> Forall proper ps -> run junk leftover empty_store ps = Ok (st, ts) ->
  value_at vs i v -> value_at vs j w -> object_at st i = Ok oi -> object_at st j = Ok oj -> 5 <= max < 2 ^ 64 ->
  to_string junk st oi max = to_string junk st oj max ->
  v_type v = v_type w /\ (v_type v <> None -> v_edges v = v_edges w) /\
  (v_type v <> None -> v_crs_type v = v_crs_type w -> v_crs_type v <> CRS_NONE ->
   Z.of_nat (length (crs_label v)) < max -> Z.of_nat (length (crs_label w)) < max -> v_crs v = v_crs w).
Proof.
  intros Hh Hp Er Hi Hj Ei Ej Hm E. destruct (run_is junk leftover [] ps ts vs Hh Hp empty_store) as (st' & E' & R); [constructor; cbn; constructor|].
  rewrite E' in Er. injection Er as ->. destruct (represented st vs i v R Hi) as (o & raw & Eo & Ro & No). destruct (represented st vs j w R Hj) as (o' & raw' & Eo' & Ro' & No').
  rewrite Eo in Ei. injection Ei as ->. rewrite Eo' in Ej. injection Ej as ->.
  rewrite (string_shows junk st vs i oi v raw max R No Ro), (string_shows junk st vs j oj w raw' max R No' Ro') in E by lia. injection E as E.
  destruct (v_type v) as [t|] eqn:Ev, (v_type w) as [u|] eqn:Ew.
  - assert (N1 : v_type v <> None) by congruence. assert (N2 : v_type w <> None) by congruence.
    destruct (shown_apart max v w (proj1 Hm) (proj1 (rep_known _ _ _ Ro)) (proj1 (rep_known _ _ _ Ro')) N1 N2 E) as (E1 & E2 & E3).
    split; [congruence|]. split; [auto|]. intros _ Ec Hc L1 L2. apply label_inj; [exact Ec | exact Hc|].
    unfold clipped in E3. destruct (Z.ltb_spec (Z.of_nat (length (crs_label v))) max); [|lia]. destruct (Z.ltb_spec (Z.of_nat (length (crs_label w))) max); [|lia]. exact E3.
  - destruct (shown_typed max v w t (proj1 Hm) (proj1 (rep_known _ _ _ Ro)) Ev Ew E).
  - destruct (shown_typed max w v u (proj1 Hm) (proj1 (rep_known _ _ _ Ro')) Ew Ev (eq_sym E)).
  - split; [reflexivity|]. split; intros []; reflexivity.
Qed.
Lemma texts_longer junk leftover ps ts vs st i v o max : history [] ps ts vs -> Forall proper ps -> run junk leftover empty_store ps = Ok (st, ts) ->
  value_at vs i v -> object_at st i = Ok o -> v_type v <> None ->
  0 <= max < 4 -> max <= Z.of_nat (length (crs_label v)) < 2 ^ 64 - 4 -> exists full,
  to_string junk st o (Z.of_nat (length (crs_label v)) + 4) = Ok full /\ to_string junk st o max = Ok (full ++ $"...>").
Proof.
  intros Hh Hp Er Hi Ei Ht Hm Hl. destruct (run_is junk leftover [] ps ts vs Hh Hp empty_store) as (st' & E' & R); [constructor; cbn; constructor|].
  rewrite E' in Er. injection Er as ->. destruct (represented st vs i v R Hi) as (o' & raw & Eo & Ro & No).
  rewrite Eo in Ei. injection Ei as ->. rewrite !(string_shortened junk st vs i o v raw _ R No Ro). destruct (v_type v) as [t|]; [|contradiction].
  eexists. split; [reflexivity|]. rewrite <- !app_assoc. do 5 f_equal. unfold shortened.
  destruct (Z.leb_spec (Z.of_nat (length (crs_label v)) + 4) (Z.of_nat (length (crs_label v)))); [lia|].
  destruct (Z.leb_spec max (Z.of_nat (length (crs_label v)))); [|lia]. f_equal. apply firstn_all2.
  replace (max - 4) with (2 ^ 64 + max - 4 + (-1) * 2 ^ 64) by lia. rewrite Z_mod_plus_full, Z.mod_small by lia. lia.
Qed.
