(** * Proofs about schemas: views and extension metadata *)
From Verif Require Import Base BaseFacts Text BufferModel TypesModel TypesSpec TypesProofs MetadataModel MetadataSpec MetadataProofs
  MetadataReading MetadataMeaning MetadataTotal MetadataWriting SchemaModel SchemaSpec SchemaMetadata SchemaProofs SchemaRecognised.
Local Open Scope Z_scope.

Lemma decides_iff {A} (o : outcome A) P Q : (forall a, P a <-> Q a) -> decides o P -> decides o Q.
Proof. intros H [Hq D]. split; [exact Hq|]. intros a. rewrite D. apply H. Qed.
Lemma decides_map {A B} (o : outcome A) (f : A -> B) P : decides o P ->
  decides (do a <- o; Ok (f a)) (fun b => exists a, P a /\ b = f a).
Proof.
  intros [Q D]. destruct Q as [[a E]|E]; rewrite E; cbn [obind].
  - split; [left; eauto|]. intros b. split.
    + intros [= <-]. exists a. split; [apply D; exact E | reflexivity].
    + intros (a' & Ha' & ->). apply D in Ha'. congruence.
  - split; [right; reflexivity|]. intros b. split; [discriminate|]. intros (a' & Ha' & _). apply D in Ha'. congruence.
Qed.

(** ** Serialized types *)
Definition serial_format (t : arrow_type) : option bytes :=
  match t with
  | TBinary => Some $"z" | TLargeBinary => Some $"Z" | TBinaryView => Some $"vz"
  | TString => Some $"u" | TLargeString => Some $"U" | TStringView => Some $"vu"
  | _ => None
  end.
Lemma parse_serial f n p g : f <> [] -> parse_format f n = Some p -> pa_rest p = [] -> serial_format (pa_type p) = Some g -> f = g.
Proof.
  intros Hf. unfold parse_format. cbv zeta.
  repeat match goal with
  | |- (if ?b then _ else _) = _ -> _ => destruct b eqn:?
  | |- match ?x with _ => _ end = _ -> _ => destruct x eqn:?
  | |- None = Some _ -> _ => discriminate
  | |- Some _ = Some _ -> _ => intros [= <-]; cbn [pa_rest pa_type serial_format]; try discriminate
  end; intros Hr [= <-].
  all: destruct f as [|a [|b [|]]]; try discriminate; try contradiction.
  all: unfold char_at in *; cbn [nth skipn] in *.
  all: repeat match goal with H : is_char ?x ?s = true |- _ =>
         let v := eval vm_compute in s in change (is_char x v = true) in H; cbn [is_char] in H; apply N.eqb_eq in H; subst x end.
  all: try reflexivity.
  all: subst; try reflexivity; discriminate.
Qed.

Lemma view_childless s v : well_formed s -> arrow_view_init s = Ok v -> childless (av_type v) = true -> sc_children s = [].
Proof.
  intros W. destruct W as [f name md flags cs dict es0 Hw Hd Hfl Ho Hm Hh Hc Hdd].
  assert (W : well_formed (Schema false (Some f) name md flags (map Some cs) dict)) by (econstructor; eassumption).
  cbn [arrow_view_init]. destruct f as [|f0 f]; [discriminate|].
  set (s := Schema false (Some (f0 :: f)) name md flags (map Some cs) dict) in *.
  destruct (parse_format (f0 :: f) (n_children s)) as [p|]; [|discriminate]. destruct (pa_rest p); [|discriminate]. cbv zeta.
  set (d := match dict with Some d => Some (arrow_view_init d) | None => None end).
  destruct (validate s p d (pa_storage p)) as [[]| | |]; try discriminate. cbn [obind].
  destruct (validate s p d (view_type s p)) as [[]| | |] eqn:V; try discriminate. cbn [obind].
  destruct (negb _); [discriminate|]. destruct (_ && _); [discriminate|]. destruct (_ && _); [discriminate|].
  destruct (get_value md name_key); try discriminate. cbn [obind]. destruct (get_value md metadata_key); try discriminate. cbn [obind].
  intros [= <-]. cbn [av_type]. intros C.
  assert (V' : validate_n_children s (Some 0) = Ok tt).
  { unfold validate in V. destruct (view_type s p); try discriminate C; exact V. }
  destruct (validate_wf s (Some 0) W) as [[_ E]|[E _]]; [|congruence].
  unfold n_children in E. destruct (sc_children s); [reflexivity | cbn [length] in E; lia].
Qed.

(** ** What is recognised *)

(** Names that the code takes for the name of a type. *)
Definition taken (b : bytes) (t : geo_type) : Prop :=
  match t with
  | Serialized Wkb _ => firstn 12 b = $"geoarrow.wkb"
  | _ => b = type_name t
  end.
Definition view_as (t : geo_type) (name : strview) (v : arrow_view) : schema_view :=
  let '(g, d, c) := parts t in SchemaView (type_id t) g d c (Some name) (av_metadata v).
Definition recognised (s : schema) (b : bytes) (name : strview) (v : arrow_view) (w : schema_view) : Prop :=
  exists t, exists_type t /\ taken b t /\ stored t s /\ w = view_as t name v.

Lemma layout_eq l : layout_code l = CT_SEPARATE -> l = Separate.
Proof. destruct l; [reflexivity | discriminate]. Qed.

Lemma native_decides k s b name v : well_formed s -> k <> KBox -> b = type_name (Native k XY Separate) ->
  decides (native_view (geometry_kind_code k) v name (parse_nested_schema (levels k) s)) (recognised s b name v).
Proof.
  intros W Hk Hb. unfold native_view.
  pose proof (decides_map _ (fun x : Z * Z => let (d, c) := x in
    SchemaView (make_type (geometry_kind_code k) d c) (geometry_kind_code k) d c (Some name) (av_metadata v)) _ (nested_decides (levels k) s W)) as D.
  match type of D with decides ?o ?P => assert (E : decides (do (d, c) <- parse_nested_schema (levels k) s;
     Ok (SchemaView (make_type (geometry_kind_code k) d c) (geometry_kind_code k) d c (Some name) (av_metadata v))) P) end.
  { destruct D as [Q D]. destruct (parse_nested_schema (levels k) s) as [[d c]| | |]; exact (conj Q D). }
  revert E. apply decides_iff. intros w. split.
  - intros (a & (d & l & -> & H) & ->). exists (Native k d l). split; [intros E; contradiction|]. split.
    { subst b. destruct k; reflexivity. }
    split; [destruct k; try contradiction; exact H|]. unfold view_as, parts, type_id. f_equal.
    unfold make_type. destruct k, d, l; try contradiction; reflexivity.
  - intros (t & Ht & Hn & Hs & ->). destruct t as [k' d l|[] w'].
    + assert (k' = k) as ->.
      { cbn [taken] in Hn. rewrite Hb in Hn. destruct k, k'; try reflexivity; vm_compute in Hn; discriminate. }
      exists (dim_code d, layout_code l). split.
      * exists d, l. split; [reflexivity|]. destruct k; try contradiction; exact Hs.
      * unfold view_as, parts, type_id. f_equal. unfold make_type. destruct k, d, l; try contradiction; reflexivity.
    + exfalso. cbn [taken] in Hn. rewrite Hb in Hn. destruct k; vm_compute in Hn; discriminate.
    + exfalso. cbn [taken] in Hn. rewrite Hb in Hn. destruct k; vm_compute in Hn; discriminate.
Qed.
Lemma box_view_decides s b name v : well_formed s -> b = $"geoarrow.box" ->
  decides (native_view GT_BOX v name (parse_box s)) (recognised s b name v).
Proof.
  intros W Hb. unfold native_view.
  pose proof (decides_map _ (fun x : Z * Z => let (d, c) := x in
    SchemaView (make_type GT_BOX d c) GT_BOX d c (Some name) (av_metadata v)) _ (box_decides s W)) as D.
  match type of D with decides ?o ?P => assert (E : decides (do (d, c) <- parse_box s;
     Ok (SchemaView (make_type GT_BOX d c) GT_BOX d c (Some name) (av_metadata v))) P) end.
  { destruct D as [Q D]. destruct (parse_box s) as [[d c]| | |]; exact (conj Q D). }
  revert E. apply decides_iff. intros w. split.
  - intros (a & (d & -> & H) & ->). exists (Native KBox d Separate). split; [intros _; reflexivity|]. split; [exact Hb|].
    split; [exact H|]. unfold view_as, parts, type_id. f_equal. destruct d; reflexivity.
  - intros (t & Ht & Hn & Hs & ->). destruct t as [k' d l|[] w'].
    + assert (k' = KBox) as ->.
      { cbn [taken] in Hn. rewrite Hb in Hn. destruct k'; try reflexivity; vm_compute in Hn; discriminate. }
      rewrite (Ht eq_refl) in *. exists (dim_code d, CT_SEPARATE). split; [exists d; split; [reflexivity | exact Hs]|].
      unfold view_as, parts, type_id. f_equal. destruct d; reflexivity.
    + exfalso. cbn [taken] in Hn. rewrite Hb in Hn. vm_compute in Hn. discriminate.
    + exfalso. cbn [taken] in Hn. rewrite Hb in Hn. vm_compute in Hn. discriminate.
Qed.

Lemma serial_decides e s b name v : well_formed s -> arrow_view_init s = Ok v -> view_behind s v ->
  taken b (Serialized e Regular) ->
  decides (match e, av_type v with
           | Wkt, TString => serialized_view TYPE_WKT v name
           | Wkt, TLargeString => serialized_view TYPE_LARGE_WKT v name
           | Wkt, TStringView => serialized_view TYPE_WKT_VIEW v name
           | Wkb, TBinary => serialized_view TYPE_WKB v name
           | Wkb, TLargeBinary => serialized_view TYPE_LARGE_WKB v name
           | Wkb, TBinaryView => serialized_view TYPE_WKB_VIEW v name
           | _, _ => Err EINVAL
           end) (recognised s b name v).
Proof.
  intros W V VB Hb.
  assert (Only : forall w, recognised s b name v w -> exists wd, stored (Serialized e wd) s /\ w = view_as (Serialized e wd) name v).
  { intros w (t & Ht & Hn & Hs & ->). destruct t as [k d l|e' wd].
    - exfalso. destruct e; cbn [taken] in Hn, Hb; rewrite Hn in Hb; destruct k; vm_compute in Hb; discriminate.
    - assert (e' = e) as ->.
      { destruct e, e'; try reflexivity; exfalso; cbn [taken] in Hn, Hb; [rewrite Hn in Hb; vm_compute in Hb | rewrite Hb in Hn; vm_compute in Hn]; discriminate. }
      exists wd. split; [exact Hs | reflexivity]. }
  assert (Fmt : forall g, serial_format (av_type v) = Some g -> sc_format s = Some g /\ sc_children s = []).
  { intros g Hg. destruct VB as (f & p & Ef & Ep & Er & Et & _). split.
    - rewrite Ef. f_equal. apply (parse_serial f (n_children s) p).
      + intros ->. destruct W. cbn [sc_format] in Ef. injection Ef as ->. cbn [arrow_view_init] in V. discriminate.
      + exact Ep. + exact Er.
      + rewrite Et in Hg. unfold view_type in Hg. destruct (sc_dictionary s); [discriminate | exact Hg].
    - apply (view_childless s v W V). destruct (av_type v); try discriminate; reflexivity. }
  assert (Typ : forall wd, stored (Serialized e wd) s -> exists t g, serial_format t = Some g /\ av_type v = t /\ sc_format s = Some g /\
     stored (Serialized e wd) s).
  { intros wd Hs.
    assert (G : forall f t, parse_format f (n_children s) = Some (Parsed t t 0 []) -> f <> [] -> ~ In f [$"c"; $"C"; $"s"; $"S"; $"i"; $"I"; $"l"; $"L"] ->
      f <> $"+m" -> childless t = true -> sc_format s = Some f -> sc_children s = [] -> serial_format t = Some f -> exists t g, serial_format t = Some g /\ av_type v = t /\ sc_format s = Some g /\
        stored (Serialized e wd) s).
    { intros f t Hp Hf Hi Hm Hc Ef Ec Sf. exists t, f. split; [exact Sf|].
      destruct (arrow_view_ok s f t 0 W Ef Hf Hi Hm Hp) as (v' & V' & Ht & _).
      { left. split; [exact Hc|]. unfold n_children. rewrite Ec. reflexivity. }
      rewrite V in V'. injection V' as <-. auto. }
    destruct e, wd; destruct Hs as [Ef Ec];
      [apply (G $"z" TBinary) | apply (G $"Z" TLargeBinary) | apply (G $"vz" TBinaryView) | apply (G $"u" TString) | apply (G $"U" TLargeString) | apply (G $"vu" TStringView)];
      try assumption; try reflexivity; try discriminate; vm_compute; intuition discriminate. }
  assert (Done : forall wd, sc_format s = sc_format s -> stored (Serialized e wd) s ->
     decides (Ok (view_as (Serialized e wd) name v)) (recognised s b name v)).
  { intros wd _ Hs. apply decides_ok.
    - exists (Serialized e wd). split; [exact I|]. split; [destruct e; exact Hb|]. split; [exact Hs | reflexivity].
    - intros w Hw. destruct (Only w Hw) as (wd' & Hs' & ->). destruct e, wd, wd'; try reflexivity; exfalso;
        cbn [stored] in Hs, Hs'; destruct Hs as [Hs _], Hs' as [Hs' _]; rewrite Hs in Hs'; vm_compute in Hs'; discriminate. }
  assert (Not : (forall g, serial_format (av_type v) = Some g -> forall wd, stored (Serialized e wd) s -> sc_format s <> Some g) ->
    decides (Err EINVAL) (recognised s b name v)).
  { intros H. apply decides_err. intros w Hw. destruct (Only w Hw) as (wd & Hs & ->).
    destruct (Typ wd Hs) as (t & g & Hg & Ht & Hf & _). subst t. exact (H g Hg wd Hs Hf). }
  destruct e, (av_type v) eqn:T; try (apply Not; cbn [serial_format]; intros g Hg; discriminate Hg);
    destruct (Fmt _ eq_refl) as [Ff Fc];
    try (apply Not; cbn [serial_format]; intros g [= <-] wd Hs _; destruct wd; destruct Hs as [Hs _]; rewrite Ff in Hs; vm_compute in Hs; discriminate).
  - exact (Done Regular eq_refl (conj Ff Fc)).
  - exact (Done Large eq_refl (conj Ff Fc)).
  - exact (Done View eq_refl (conj Ff Fc)).
  - exact (Done Regular eq_refl (conj Ff Fc)).
  - exact (Done Large eq_refl (conj Ff Fc)).
  - exact (Done View eq_refl (conj Ff Fc)).
Qed.

Lemma internal_decides s v name b : well_formed s -> arrow_view_init s = Ok v -> view_behind s v -> views name b ->
  decides (view_init_internal s v name) (recognised s b name v).
Proof.
  intros W V VB Hn. unfold view_init_internal. rewrite !(named_spec _ _ _ Hn), (named_prefix_spec _ _ _ Hn). cbn [obind].
  destruct (same_text b $"geoarrow.box") eqn:E1; [apply same_text_eq in E1; apply box_view_decides; assumption|].
  destruct (same_text b $"geoarrow.point") eqn:E2; [apply same_text_eq in E2; apply (native_decides KPoint); try assumption; discriminate|].
  destruct (same_text b $"geoarrow.linestring") eqn:E3; [apply same_text_eq in E3; apply (native_decides KLinestring); try assumption; discriminate|].
  destruct (same_text b $"geoarrow.polygon") eqn:E4; [apply same_text_eq in E4; apply (native_decides KPolygon); try assumption; discriminate|].
  destruct (same_text b $"geoarrow.multipoint") eqn:E5; [apply same_text_eq in E5; apply (native_decides KMultipoint); try assumption; discriminate|].
  destruct (same_text b $"geoarrow.multilinestring") eqn:E6; [apply same_text_eq in E6; apply (native_decides KMultilinestring); try assumption; discriminate|].
  destruct (same_text b $"geoarrow.multipolygon") eqn:E7; [apply same_text_eq in E7; apply (native_decides KMultipolygon); try assumption; discriminate|].
  destruct (same_text b $"geoarrow.wkt") eqn:E8; [apply same_text_eq in E8; apply (serial_decides Wkt); assumption|].
  destruct (same_text (firstn (length $"geoarrow.wkb") b) $"geoarrow.wkb") eqn:E9; [apply same_text_eq in E9; apply (serial_decides Wkb); assumption|].
  apply decides_err. intros w (t & _ & Ht & _).
  assert (N : forall x, same_text b x = false -> b <> x). { intros x Hx ->. rewrite same_text_refl in Hx. discriminate. }
  destruct t as [k d l|[] wd]; cbn [taken] in Ht.
  - destruct k; cbn [type_name] in Ht; revert Ht; apply N; assumption.
  - change (length $"geoarrow.wkb") with 12%nat in E9. rewrite Ht, same_text_refl in E9. discriminate.
  - revert Ht. apply N. exact E8.
Qed.

Lemma stored_view s t : well_formed s -> stored t s -> exists v, arrow_view_init s = Ok v.
Proof.
  intros W Hs.
  assert (G : forall f ty z, parse_format f (n_children s) = Some (Parsed ty ty z []) -> f <> [] ->
     ~ In f [$"c"; $"C"; $"s"; $"S"; $"i"; $"I"; $"l"; $"L"] -> f <> $"+m" -> sc_format s = Some f ->
     (childless ty = true /\ n_children s = 0 \/ (ty = TList \/ ty = TFixedSizeList) /\ n_children s = 1 \/ ty = TStruct) ->
     exists v, arrow_view_init s = Ok v).
  { intros f ty z Hp Hf Hi Hm Ef Hc. destruct (arrow_view_ok s f ty z W Ef Hf Hi Hm Hp Hc) as (v & E & _). eauto. }
  assert (L : forall n P, lists (S n) P s -> exists v, arrow_view_init s = Ok v).
  { intros n P [Ef (c & Ec & _)]. apply (G $"+l" TList 0); try reflexivity; try discriminate; try assumption;
      [vm_compute; intuition discriminate|]. right. left. split; [left; reflexivity | unfold n_children; rewrite Ec; reflexivity]. }
  assert (C : forall d l, coords d l s -> exists v, arrow_view_init s = Ok v).
  { intros d l H. destruct l.
    - destruct H as [Ef _]. apply (G $"+s" TStruct 0); try reflexivity; try discriminate; try assumption;
        [vm_compute; intuition discriminate | right; right; reflexivity].
    - destruct H as [Ef (c & Ec & _)].
      apply (G (size_format d) TFixedSizeList (match d with XY => 2 | XYZM => 4 | _ => 3 end)); try assumption;
        try (destruct d; first [reflexivity | discriminate | vm_compute; intuition discriminate]).
      right. left. split; [right; reflexivity | unfold n_children; rewrite Ec; reflexivity]. }
  destruct t as [k d l|e wd].
  - destruct k; cbn [stored levels] in Hs; try exact (L _ _ Hs); try exact (C _ _ Hs).
    destruct Hs as [Ef _]. apply (G $"+s" TStruct 0); try reflexivity; try discriminate; try assumption;
      [vm_compute; intuition discriminate | right; right; reflexivity].
  - assert (S : exists f ty, parse_format f (n_children s) = Some (Parsed ty ty 0 []) /\ In f [$"z"; $"Z"; $"vz"; $"u"; $"U"; $"vu"] /\ sc_format s = Some f /\
      childless ty = true /\ sc_children s = []).
    { destruct e, wd; destruct Hs as [Ef Ec]; rewrite Ef;
        [exists $"z", TBinary | exists $"Z", TLargeBinary | exists $"vz", TBinaryView | exists $"u", TString | exists $"U", TLargeString | exists $"vu", TStringView];
        (split; [reflexivity | split; [cbn [In]; tauto | split; [reflexivity | split; [reflexivity | exact Ec]]]]). }
    destruct S as (f & ty & Hp & Hi & Ef & Hc & Ec).
    apply (G f ty 0); try assumption.
    + intros ->. vm_compute in Hi. intuition discriminate.
    + intros H. cbn [In] in Hi. destruct Hi as [<-|[<-|[<-|[<-|[<-|[<-|[]]]]]]]; vm_compute in H; intuition discriminate.
    + intros ->. vm_compute in Hi. intuition discriminate.
    + left. split; [exact Hc | unfold n_children; rewrite Ec; reflexivity].
Qed.

Lemma shows_view_as t name v : shows (view_as t name v) t.
Proof. unfold shows, view_as. destruct (parts t) as [[g d] c] eqn:E. rewrite <- E. cbn. rewrite E. split; reflexivity. Qed.
Lemma shows_unique v t t' : shows v t -> shows v t' -> t = t'.
Proof.
  intros [H1 H2] [H3 H4]. rewrite H2 in H4. rewrite H1 in H3. clear H1 H2. destruct t as [k d l|e w], t' as [k' d' l'|e' w'].
  - cbn [parts] in H4. injection H4 as E1 E2 E3.
    assert (k = k') as -> by (destruct k, k'; try reflexivity; discriminate E1).
    assert (d = d') as -> by (destruct d, d'; try reflexivity; discriminate E2).
    assert (l = l') as -> by (destruct l, l'; try reflexivity; discriminate E3). reflexivity.
  - destruct d; discriminate H4.
  - destruct d'; discriminate H4.
  - destruct e, w, e', w'; try reflexivity; discriminate H3.
Qed.

(** GeoArrowSchemaViewInitFromStorage. *)
Lemma from_storage_spec s name b : well_formed s -> views name b ->
  let o := schema_view_init_from_storage s name in
  quiet o /\ (forall t, (exists w, o = Ok w /\ shows w t) <-> exists_type t /\ taken b t /\ stored t s) /\
  (forall w, o = Ok w -> (exists t, exists_type t /\ shows w t) /\ gv_name w = Some name).
Proof.
  intros W Hn o. subst o. unfold schema_view_init_from_storage.
  destruct (wf_holds s W) as (es & Hes).
  destruct (arrow_view_cases s W es Hes) as [E|(v & E & _ & VB)]; rewrite E; cbn [obind].
  - split; [right; reflexivity|]. split; [|discriminate]. intros t. split.
    + intros (w & H & _). discriminate.
    + intros (_ & _ & H). destruct (stored_view s t W H) as (v & E'). congruence.
  - destruct (internal_decides s v name b W E VB Hn) as [Q D]. split; [exact Q|]. split.
    + intros t. split.
      * intros (w & Hw & Hs). apply D in Hw as (t' & H1 & H2 & H3 & ->).
        rewrite (shows_unique _ _ _ Hs (shows_view_as t' name v)). auto.
      * intros (H1 & H2 & H3). exists (view_as t name v). split; [|apply shows_view_as]. apply D. exists t. auto.
    + intros w Hw. apply D in Hw as (t' & H1 & H2 & H3 & ->). split; [exists t'; split; [exact H1 | apply shows_view_as]|].
      unfold view_as. destruct (parts t') as [[g d] c]. reflexivity.
Qed.

(** GeoArrowSchemaViewInit. *)
Lemma view_init_spec s es : well_formed s -> holds (sc_metadata s) es ->
  quiet (schema_view_init s) /\
  (forall t, (exists w, schema_view_init s = Ok w /\ shows w t) <->
     exists_type t /\ (exists b, value_of name_key es = Some b /\ taken b t) /\ stored t s) /\
  (forall w, schema_view_init s = Ok w -> (exists t, exists_type t /\ shows w t) /\
     viewed (gv_name w) (value_of name_key es) /\ viewed (gv_metadata w) (value_of metadata_key es)).
Proof.
  intros W Hes. unfold schema_view_init.
  destruct (arrow_view_cases s W es Hes) as [E|(v & E & [VN VM] & VB)]; rewrite E; cbn [obind].
  - split; [right; reflexivity|]. split; [|discriminate]. intros t. split.
    + intros (w & H & _). discriminate.
    + intros (_ & _ & H). destruct (stored_view s t W H) as (v & E'). congruence.
  - destruct (value_of name_key es) as [b|] eqn:Eb.
    2:{ rewrite VN. split; [right; reflexivity|]. split; [|discriminate]. intros t. split.
        - intros (w & H & _). discriminate.
        - intros (_ & (b & H & _) & _). discriminate. }
    destruct VN as (name & -> & Hn).
    destruct (internal_decides s v name b W E VB Hn) as [Q D]. split; [exact Q|]. split.
    + intros t. split.
      * intros (w & Hw & Hs). apply D in Hw as (t' & H1 & H2 & H3 & ->).
        rewrite (shows_unique _ _ _ Hs (shows_view_as t' name v)). eauto 6.
      * intros (H1 & (b' & [= <-] & H2) & H3). exists (view_as t name v). split; [|apply shows_view_as]. apply D. exists t. auto.
    + intros w Hw. apply D in Hw as (t' & H1 & H2 & H3 & ->). split; [exists t'; split; [exact H1 | apply shows_view_as]|].
      assert (gv_name (view_as t' name v) = Some name /\ gv_metadata (view_as t' name v) = av_metadata v) as [-> ->].
      { unfold view_as. destruct (parts t') as [[g d] c]. split; reflexivity. }
      split; [exists name; split; [reflexivity | exact (proj1 Hn)]|].
      unfold viewed. destruct (value_of metadata_key es); [destruct VM as (x & -> & [Hx _]); eauto | exact VM].
Qed.

(** ** Creating schemas *)
Lemma wf_simple f name md flags cs es :
  (forall t, f = $"+w:" ++ t -> numeral t /\ numeral_value t < 2147483648) -> (flags = 0 \/ flags = 2) -> holds md es ->
  Forall well_formed cs -> well_formed (Schema false (Some f) name md flags (map Some cs) None).
Proof.
  intros Hf Hg Hh Hc. refine (Well_formed f name md flags cs None es Hf _ _ _ _ Hh _ _).
  - intros H. destruct (H eq_refl).
  - lia.
  - destruct Hg as [->| ->]; discriminate.
  - destruct Hg as [->| ->]; discriminate.
  - apply Forall_forall. exact Hc.
  - discriminate.
Qed.
Lemma holds_none : holds None [].
Proof. split; [|reflexivity]. split; [unfold short; cbn; lia | constructor]. Qed.
Lemma holds_two a b c d : short a -> short b -> short c -> short d -> holds (Some (metadata_bytes [(a, b); (c, d)])) [(a, b); (c, d)].
Proof.
  intros. split; [|exists []; rewrite app_nil_r; reflexivity]. split; [unfold short; cbn; lia|].
  repeat (constructor; [split; assumption|]). constructor.
Qed.

(** A schema without name and metadata. *)
Definition fresh (s : schema) : Prop :=
  exists f cs, s = Schema false (Some f) None None 2 (map Some cs) None /\ Forall well_formed cs /\
    (forall t, f = $"+w:" ++ t -> numeral t /\ numeral_value t < 2147483648).
Lemma fresh_child s n : fresh s -> well_formed (set_flags (set_name s n) 0).
Proof. intros (f & cs & -> & Hc & Hf). apply (wf_simple f (Some n) None 0 cs []); auto using holds_none. Qed.
Lemma fresh_metadata s md es : fresh s -> holds md es -> well_formed (with_metadata s md).
Proof. intros (f & cs & -> & Hc & Hf) H. apply (wf_simple f None md 2 cs es); auto. Qed.
Lemma fresh_simple f : (forall t, f <> $"+w:" ++ t) -> fresh (init_from_type f).
Proof. intros H. exists f, []. split; [reflexivity|]. split; [constructor|]. intros t E. destruct (H t E). Qed.
Lemma fresh_struct cs : Forall well_formed cs -> fresh (set_children (init_from_type $"+s") cs).
Proof. intros H. exists $"+s", cs. split; [reflexivity|]. split; [exact H|]. intros t E. discriminate E. Qed.
Lemma fresh_double : fresh (init_from_type $"g").
Proof. apply fresh_simple. intros t E. discriminate E. Qed.
Lemma double_named n : doubles (Some (set_flags (set_name (init_from_type $"g") n) 0)) n.
Proof. eexists. split; [reflexivity | split; reflexivity]. Qed.
Lemma double_list (f : N -> bytes) ns : Forall well_formed (map (fun d => set_flags (set_name (init_from_type $"g") (f d)) 0) ns) /\
  Forall2 doubles (map Some (map (fun d => set_flags (set_name (init_from_type $"g") (f d)) 0) ns)) (map f ns).
Proof.
  split.
  - apply Forall_forall. intros x Hx. apply in_map_iff in Hx as (y & <- & _). apply fresh_child, fresh_double.
  - induction ns as [|n ns IH]; cbn [map]; constructor; [apply double_named | exact IH].
Qed.

Lemma struct_created d : fresh (init_coord_struct (dim_names d)) /\ separate d (init_coord_struct (dim_names d)).
Proof.
  destruct (double_list (fun c => [c]) (dim_names d)) as [H1 H2]. split; [apply fresh_struct; exact H1|].
  split; [reflexivity | exact H2].
Qed.
Lemma rect_created d : fresh (init_rect (dim_names d)) /\ box d (init_rect (dim_names d)).
Proof.
  destruct (double_list (fun c => [c] ++ $"min") (dim_names d)) as [H1 H2].
  destruct (double_list (fun c => [c] ++ $"max") (dim_names d)) as [H3 H4]. split.
  - apply fresh_struct. apply Forall_app. split; assumption.
  - split; [reflexivity|]. unfold init_rect, set_children, init_from_type, set_format, arrow_schema_init. cbn [sc_children].
    rewrite map_app. apply Forall2_app; assumption.
Qed.
Lemma size_numeral d t : size_format d = $"+w:" ++ t -> numeral t /\ numeral_value t < 2147483648.
Proof.
  destruct (size_text d) as (c & -> & Hc & _). intros H. apply app_inv_head in H. subst t.
  split; [split; [discriminate | split; [constructor; [lia | constructor] | intros _; reflexivity]]|].
  unfold numeral_value. cbn [fold_left]. lia.
Qed.
Lemma list_created d : fresh (init_coord_fixed_size_list (dim_names d)) /\ interleaved d (init_coord_fixed_size_list (dim_names d)).
Proof.
  assert (E : init_coord_fixed_size_list (dim_names d) =
    Schema false (Some (size_format d)) None None 2 (map Some [Schema false (Some $"g") (Some (dim_names d)) None 0 [] None]) None)
    by (destruct d; reflexivity).
  rewrite E. split.
  - exists (size_format d), [Schema false (Some $"g") (Some (dim_names d)) None 0 [] None]. split; [reflexivity|]. split.
    + constructor; [|constructor]. apply (wf_simple $"g" _ None 0 [] []); auto using holds_none. intros t H. discriminate H.
    + apply size_numeral.
  - split; [reflexivity|]. eexists. split; [reflexivity|]. split; [reflexivity|]. left. reflexivity.
Qed.
Definition base (d : dim) (l : layout) : schema :=
  match l with Separate => init_coord_struct (dim_names d) | Interleaved => init_coord_fixed_size_list (dim_names d) end.
Lemma base_created d l : fresh (base d l) /\ coords d l (base d l).
Proof. destruct l; [apply struct_created | apply list_created]. Qed.
Lemma list_of_created d l names : exists s, init_list_of (layout_code l) (dim_names d) names = Ok s /\ fresh s /\
  lists (length names) (coords d l) s.
Proof.
  induction names as [|n names (s & E & F & L)]; cbn [init_list_of length lists].
  - exists (base d l). split; [destruct l; reflexivity | apply base_created].
  - rewrite E. cbn [obind]. eexists. split; [reflexivity|]. split.
    + exists $"+l", [set_flags (set_name s n) 0]. split; [reflexivity|].
      split; [constructor; [apply fresh_child; exact F | constructor] | intros t H; discriminate H].
    + split; [reflexivity|]. eexists. split; [reflexivity|].
      destruct F as (f & cs & -> & _). cbn [set_flags set_name].
      destruct (length names); cbn [lists] in *; [destruct l; exact L | exact L].
Qed.

Lemma type_parts k d l : supported k d l -> let t := type_id (Native k d l) in
  (t =? TYPE_WKB) = false /\ (t =? TYPE_LARGE_WKB) = false /\ (t =? TYPE_WKB_VIEW) = false /\
  (t =? TYPE_WKT) = false /\ (t =? TYPE_LARGE_WKT) = false /\ (t =? TYPE_WKT_VIEW) = false /\
  coord_type_from_type t = layout_code l /\ geometry_type_from_type t = geometry_kind_code k /\
  dims_string (dimensions_from_type t) = Some (dim_names d).
Proof. intros H. destruct k, d, l; try (specialize (H eq_refl); discriminate H); vm_compute; repeat split; reflexivity. Qed.

Lemma init_created t : exists_type t -> exists s, schema_init (type_id t) = Ok s /\ fresh s /\ stored t s.
Proof.
  intros He. destruct t as [k d l|e w].
  - destruct (type_parts k d l He) as (E1 & E2 & E3 & E4 & E5 & E6 & E7 & E8 & E9). unfold schema_init.
    rewrite E1, E2, E3, E4, E5, E6, E7, E8, E9. cbv zeta.
    destruct k; cbn [geometry_kind_code];
      repeat match goal with |- context [?a =? ?b] =>
        let v := eval vm_compute in (a =? b) in lazymatch v with true => change (a =? b) with true | false => change (a =? b) with false end; cbv iota end.
    + destruct l; (eexists; split; [reflexivity|]); [apply struct_created | apply list_created].
    + destruct (list_of_created d l [$"vertices"]) as (s & -> & F & L). eauto.
    + destruct (list_of_created d l [$"rings"; $"vertices"]) as (s & -> & F & L). eauto.
    + destruct (list_of_created d l [$"points"]) as (s & -> & F & L). eauto.
    + destruct (list_of_created d l [$"linestrings"; $"vertices"]) as (s & -> & F & L). eauto.
    + destruct (list_of_created d l [$"polygons"; $"rings"; $"vertices"]) as (s & -> & F & L). eauto.
    + rewrite (He eq_refl). eexists. split; [reflexivity|]. apply rect_created.
  - destruct e, w; (eexists; split; [reflexivity|]; split; [apply fresh_simple; intros t H; discriminate H | split; reflexivity]).
Qed.

Lemma set_metadata_holds s es : fits es ->
  schema_set_metadata s (buffer_data (metadata_bytes es)) = Ok (with_metadata s (Some (metadata_bytes es))).
Proof.
  intros H. assert (buffer_data (metadata_bytes es) = Some (metadata_bytes es)) as ->.
  { unfold buffer_data. assert (length (metadata_bytes es) <> 0%nat) by (rewrite metadata_length; lia).
    destruct (metadata_bytes es); [contradiction | reflexivity]. }
  unfold schema_set_metadata. pose proof (size_of_some es [] H) as E. pose proof (copied es []) as C.
  rewrite app_nil_r in E, C. unfold bytes, byte in *. rewrite E. cbn [obind].
  destruct (Z.ltb_spec (Z.of_nat (length (metadata_bytes es))) 0); [lia|]. rewrite C. cbn [or_ub obind].
  destruct s. reflexivity.
Qed.

Lemma Some_inj {A} (a b : A) : Some a = Some b -> a = b.
Proof. congruence. Qed.
Lemma init_extension z name : extension_name_from_type z = Some name ->
  exists es, schema_init_extension z = (do s <- schema_init z; Ok (with_metadata s (Some (metadata_bytes es)))) /\
    es = [(name_key, name); (metadata_key, $"{}")] /\ holds (Some (metadata_bytes es)) es.
Proof.
  intros E. assert (Hn : short name).
  { assert (In name (map type_name [Native KPoint XY Separate; Native KLinestring XY Separate; Native KPolygon XY Separate;
      Native KMultipoint XY Separate; Native KMultilinestring XY Separate; Native KMultipolygon XY Separate; Native KBox XY Separate;
      Serialized Wkb Regular; Serialized Wkt Regular])) as Hin.
    { unfold extension_name_from_type in E. cbv zeta in E. cbn [map type_name In].
      repeat match type of E with (if ?b then _ else _) = _ => destruct b end; try discriminate E; apply Some_inj in E; subst name; tauto. }
    unfold short. apply in_map_iff in Hin as (t & <- & _). destruct t as [[]|[]]; vm_compute; reflexivity. }
  assert (Hm : short metadata_key) by reflexivity. assert (Hk : short name_key) by reflexivity.
  assert (Hv : short $"{}") by reflexivity.
  exists [(name_key, name); (metadata_key, $"{}")]. split; [|split; [reflexivity | apply holds_two; assumption]].
  unfold schema_init_extension. rewrite E.
  destruct (builder_init_spec None [] holds_none) as (b & -> & Hb). cbn [obind].
  assert (A1 : builder_append b name_key (Some name) = Ok (metadata_bytes [(name_key, name)])).
  { apply (append_entry b []); cbn [length]; assumption || lia. }
  assert (A2 : builder_append (metadata_bytes [(name_key, name)]) metadata_key (Some $"{}") = Ok (metadata_bytes [(name_key, name); (metadata_key, $"{}")])).
  { apply (append_entry _ [(name_key, name)]); cbn [length]; auto; lia. }
  unfold bytes, byte in *. rewrite A1. cbn [obind]. rewrite A2. cbn [obind].
  destruct (schema_init z); cbn [obind]; try reflexivity. apply set_metadata_holds.
  exact (proj1 (holds_two _ _ _ _ Hk Hn Hm Hv)).
Qed.

Lemma name_from_type t : exists_type t -> extension_name_from_type (type_id t) = Some (type_name t).
Proof. intros He. destruct t as [k d l|[] []]; try reflexivity. destruct k, d, l; try reflexivity; specialize (He eq_refl); discriminate He. Qed.

Lemma created t : exists_type t -> exists s,
  schema_init_extension (type_id t) = Ok s /\ well_formed s /\ stored t s /\
  holds (sc_metadata s) [(name_key, type_name t); (metadata_key, $"{}")].
Proof.
  intros He. destruct (init_extension _ _ (name_from_type t He)) as (es & E & Hes & H). rewrite E.
  destruct (init_created t He) as (s & -> & F & S). cbn [obind]. eexists. split; [reflexivity|].
  split; [exact (fresh_metadata s _ es F H)|]. destruct F as (f & cs & -> & _). cbn [with_metadata sc_metadata].
  split; [|rewrite <- Hes; exact H].
  destruct t as [[] d l|[] []]; try exact S; destruct l; exact S.
Qed.

Lemma taken_name t : taken (type_name t) t.
Proof. destruct t as [[]|[]]; reflexivity. Qed.
Lemma created_view t : exists_type t -> exists s v,
  schema_init_extension (type_id t) = Ok s /\ stored t s /\
  holds (sc_metadata s) [(name_key, type_name t); (metadata_key, $"{}")] /\
  schema_view_init s = Ok v /\ shows v t /\ viewed (gv_name v) (Some (type_name t)) /\ viewed (gv_metadata v) (Some $"{}").
Proof.
  intros He. destruct (created t He) as (s & E & W & S & H).
  destruct (view_init_spec s _ W H) as (_ & V1 & V2).
  destruct (proj2 (V1 t)) as (v & Ev & Hv).
  { split; [exact He|]. split; [|exact S]. exists (type_name t). split; [reflexivity | apply taken_name]. }
  exists s, v. destruct (V2 v Ev) as (_ & N & M). auto 10.
Qed.

(** ** Types that do not exist *)
Definition type_ids : list Z := native_type_ids ++ [100001; 100002; 100003; 100004; 100005; 100006].
Lemma type_ids_exist z : In z type_ids -> exists t, exists_type t /\ type_id t = z.
Proof.
  unfold type_ids. intros H. apply in_app_or in H as [H|H].
  - apply native_type_ids_enum in H. destruct H as (k & d & l & Hs & E). exists (Native k d l). split; [exact Hs|].
    subst z. unfold type_id. destruct k, d, l; try (specialize (Hs eq_refl); discriminate Hs); reflexivity.
  - cbn [In] in H. destruct H as [<-|[<-|[<-|[<-|[<-|[<-|[]]]]]]];
      [exists (Serialized Wkb Regular) | exists (Serialized Wkb Large) | exists (Serialized Wkt Regular) | exists (Serialized Wkt Large) | exists (Serialized Wkb View) | exists (Serialized Wkt View)];
      (split; [exact I | reflexivity]).
Qed.
Definition refused (z : Z) : bool :=
  existsb (Z.eqb z) type_ids ||
  match extension_name_from_type z with None => true | Some _ => match schema_init z with Err 22 => true | _ => false end end.
Lemma refused_small : forallb refused (zrange (Z.to_nat 15000) (-1000)) = true.
Proof. vm_compute. reflexivity. Qed.
Lemma unsupported z : (forall t, exists_type t -> type_id t <> z) -> schema_init_extension z = Err EINVAL.
Proof.
  intros H. assert (Hn : ~ In z type_ids). { intros Hi. destruct (type_ids_exist z Hi) as (t & He & E). exact (H t He E). }
  destruct (extension_name_from_type z) as [name|] eqn:En; [|unfold schema_init_extension; rewrite En; reflexivity].
  destruct (init_extension z name En) as (es & -> & _).
  assert (schema_init z = Err EINVAL) as ->; [|reflexivity].
  assert (D : -1000 <= z < 14000 \/ ~ (-1000 <= z < 14000)) by lia. destruct D as [D|D].
  - assert (I : In z (zrange (Z.to_nat 15000) (-1000))) by (apply zrange_in; lia).
    pose proof (proj1 (forallb_forall _ _) refused_small z I) as R. unfold refused in R. apply orb_prop in R as [R|R].
    { apply in_dec_b in R. contradiction. }
    rewrite En in R. destruct (schema_init z) as [|c| |]; try discriminate. unfold EINVAL. f_equal. destruct c as [|c|c]; try discriminate.
    do 5 (destruct c as [c|c|]; try discriminate). reflexivity.
  - assert (W : z <> 100001 /\ z <> 100002 /\ z <> 100003 /\ z <> 100004 /\ z <> 100005 /\ z <> 100006).
    { unfold type_ids in Hn. repeat split; intros ->; apply Hn; apply in_or_app; right; cbn [In]; tauto. }
    unfold schema_init. unfold TYPE_WKB, TYPE_LARGE_WKB, TYPE_WKB_VIEW, TYPE_WKT, TYPE_LARGE_WKT, TYPE_WKT_VIEW.
    destruct (Z.eqb_spec z 100001); [lia|]. destruct (Z.eqb_spec z 100002); [lia|]. destruct (Z.eqb_spec z 100005); [lia|].
    destruct (Z.eqb_spec z 100003); [lia|]. destruct (Z.eqb_spec z 100004); [lia|]. destruct (Z.eqb_spec z 100006); [lia|].
    cbv zeta. assert (dimensions_from_type z = DIM_UNKNOWN) as ->; [|reflexivity].
    unfold dimensions_from_type. destruct (is_serialized_or_uninit z); [reflexivity|]. unfold TYPE_INTERLEAVED_POINT.
    assert (Q : forall i, i <= -1000 \/ 4000 <= i -> Z.quot i 1000 <= -1 \/ 4 <= Z.quot i 1000).
    { intros i [Hi|Hi]; [left | right].
      - rewrite <- (Z.opp_involutive i), Z.quot_opp_l by lia. pose proof (Z.quot_le_lower_bound (- i) 1000 1). lia.
      - apply Z.quot_le_lower_bound; lia. }
    cbv zeta. specialize (Q (if 10001 <=? z then z - 10000 else z)).
    destruct (Z.leb_spec 10001 z); specialize (Q ltac:(lia));
      match goal with |- context [Z.quot ?i 1000] => set (q := Z.quot i 1000) in * end;
      (destruct (Z.eqb_spec q 0); [lia|]; destruct (Z.eqb_spec q 1); [lia|];
       destruct (Z.eqb_spec q 2); [lia|]; destruct (Z.eqb_spec q 3); [lia|]; reflexivity).
Qed.

(** GeoArrowSchemaViewInitFromType. *)
Lemma from_type t : exists_type t -> exists v, schema_view_init_from_type (type_id t) = Ok v /\ shows v t /\
  viewed (gv_name v) (Some (type_name t)) /\ gv_metadata v = None.
Proof.
  intros He. unfold schema_view_init_from_type. rewrite (name_from_type t He).
  assert (type_id t =? TYPE_UNINITIALIZED = false) as ->. { destruct t as [k d l|[] []]; try reflexivity. destruct k, d, l; reflexivity. }
  eexists. split; [reflexivity|]. split; [|split; [|reflexivity]].
  - split; [reflexivity|]. destruct t as [k d l|[] []]; try reflexivity.
    destruct k, d, l; try reflexivity; specialize (He eq_refl); discriminate He.
  - eexists. split; [reflexivity|]. destruct t as [[]|[]]; vm_compute; reflexivity.
Qed.

(** ** Setting the extension metadata *)
Definition update (s : schema) (es : list (bytes * bytes)) (text : bytes) (s' : schema) : Prop :=
  exists es', s' = with_metadata s (sc_metadata s') /\ holds (sc_metadata s') es' /\
    others metadata_key es' = others metadata_key es /\
    filter (fun e => same_text (fst e) metadata_key) es' = [(metadata_key, text)].
Lemma set_value s es text : holds (sc_metadata s) es -> Z.of_nat (length es) < 2147483647 -> short text ->
  exists s', (do b <- builder_init (sc_metadata s); do b <- builder_set b metadata_key text; schema_set_metadata s (buffer_data b)) = Ok s' /\
    update s es text s'.
Proof.
  intros Hh Hl Ht. assert (Hk : short metadata_key) by reflexivity.
  destruct (builder_init_spec _ _ Hh) as (b & -> & Hb). cbn [obind].
  rewrite (builder_set_spec b es metadata_key text Hb (proj1 Hh) Hl Hk Ht). cbn [obind].
  pose proof (set_entries_fits metadata_key text es (proj1 Hh) Hl Hk Ht) as Hf.
  rewrite set_metadata_holds by exact Hf. eexists. split; [reflexivity|].
  exists (set_entries metadata_key text es). destruct s. cbn [with_metadata sc_metadata].
  split; [reflexivity|]. split; [split; [exact Hf | exists []; rewrite app_nil_r; reflexivity]|].
  split; [apply set_entries_others | apply set_entries_key].
Qed.

Lemma crs_length crs : (length (write_escaped crs) <= 2 * length crs)%nat.
Proof. induction crs as [|c crs IH]; cbn [write_escaped flat_map]; [lia|]. rewrite app_length. fold (write_escaped crs). destruct (_ =? _)%N; cbn [length]; lia. Qed.
Lemma serialized_short m : Z.of_nat (length (m_crs m)) <= 1000000000 -> short (serialized m).
Proof.
  intros H. unfold short, serialized.
  assert (E : (length (edge_type_string (m_edges m)) <= 100)%nat).
  { unfold edge_type_string. repeat match goal with |- context [if ?b then _ else _] => destruct b end; vm_compute; lia. }
  assert (C : (length (crs_type_string (m_crs_type m)) <= 100)%nat).
  { unfold crs_type_string. repeat match goal with |- context [if ?b then _ else _] => destruct b end; vm_compute; lia. }
  pose proof (crs_length (m_crs m)). 
  repeat match goal with |- context [if ?b then _ else _] => destruct b end;
    repeat rewrite app_length;
    change (length $"""edges"":") with 8%nat; change (length $"""crs_type"":") with 11%nat; change (length $"""crs"":") with 6%nat; cbn [length]; lia.
Qed.

Lemma set_geoarrow s es m : holds (sc_metadata s) es -> Z.of_nat (length es) < 2147483647 ->
  (m_crs_type m = CRS_NONE \/ carried_crs (m_crs m)) -> Z.of_nat (length (m_crs m)) <= 1000000000 ->
  exists s', schema_set_geoarrow_metadata s m = Ok s' /\ update s es (serialized m) s'.
Proof.
  intros Hh Hl Hc Hs. unfold schema_set_geoarrow_metadata.
  rewrite serialized_length by (destruct Hc as [Hc|[[_ Hc]|[Hc _]]]; auto). rewrite Z.eqb_refl. cbn [negb].
  exact (set_value s es (serialized m) Hh Hl (serialized_short m Hs)).
Qed.

Lemma set_geoarrow_from s es source es0 : holds (sc_metadata s) es -> Z.of_nat (length es) < 2147483647 ->
  well_formed source -> holds (sc_metadata source) es0 ->
  schema_set_geoarrow_metadata_from s source = Err EINVAL \/
  exists s', schema_set_geoarrow_metadata_from s source = Ok s' /\
    update s es (match value_of metadata_key es0 with Some t => t | None => [] end) s'.
Proof.
  intros Hh Hl W H0. unfold schema_set_geoarrow_metadata_from.
  destruct (arrow_view_cases source W es0 H0) as [->|(v & E & [_ VM] & _)]; [left; reflexivity|]. right. rewrite E. cbn [obind].
  set (text := match value_of metadata_key es0 with Some t => t | None => [] end).
  assert (T : (match av_metadata v with Some t => or_ub (sv_bytes t) | None => Ok [] end) = Ok text /\ short text).
  { subst text. destruct (value_of metadata_key es0) as [t|] eqn:Ev.
    - destruct VM as (w & -> & [-> _]). split; [reflexivity|].
      unfold value_of in Ev. destruct (find _ es0) as [e|] eqn:Ef; [|discriminate]. injection Ev as <-.
      apply find_some in Ef as [Hin _]. destruct H0 as [[_ Hf] _]. exact (proj2 (proj1 (Forall_forall _ _) Hf e Hin)).
    - rewrite VM. split; [reflexivity | reflexivity]. }
  destruct T as [-> Ht]. cbn [obind]. exact (set_value s es text Hh Hl Ht).
Qed.

Lemma wf_with_metadata s md es : well_formed s -> holds md es -> well_formed (with_metadata s md).
Proof. intros W Hmd. destruct W. cbn [with_metadata]. econstructor; eassumption. Qed.
Lemma stored_with_metadata t s md : stored t (with_metadata s md) <-> stored t s.
Proof. destruct s, t as [[] d l|[] []]; try reflexivity; destruct l; reflexivity. Qed.

(** The type that is recognised does not change. *)
Lemma update_view s es text s' t v : well_formed s -> holds (sc_metadata s) es -> update s es text s' ->
  schema_view_init s = Ok v -> shows v t ->
  exists v', schema_view_init s' = Ok v' /\ shows v' t /\
    viewed (gv_name v') (value_of name_key es) /\ viewed (gv_metadata v') (Some text).
Proof.
  intros W Hh (es' & Es & Hh' & Ho & Hk) E Hs.
  assert (Vn : value_of name_key es' = value_of name_key es).
  { rewrite <- (value_of_others metadata_key name_key es'), Ho by discriminate. apply value_of_others. discriminate. }
  assert (Vm : value_of metadata_key es' = Some text).
  { unfold value_of. rewrite find_filter, Hk. reflexivity. }
  destruct (view_init_spec s es W Hh) as (_ & V & _).
  destruct (proj1 (V t) (ex_intro _ v (conj E Hs))) as (He & Hn & Hst).
  assert (W' : well_formed s') by (rewrite Es; apply (wf_with_metadata s _ es' W Hh')).
  destruct (view_init_spec s' es' W' Hh') as (_ & V' & N').
  destruct (proj2 (V' t)) as (v' & Ev' & Hv').
  { split; [exact He|]. split; [rewrite Vn; exact Hn|]. rewrite Es. apply stored_with_metadata. exact Hst. }
  exists v'. destruct (N' v' Ev') as (_ & A & B). rewrite Vn in A. rewrite Vm in B. auto.
Qed.

(** ** Schemas that are recognised although they should not be *)
Definition wkbx : schema :=
  Schema false (Some $"z") None (Some (metadata_bytes [(name_key, $"geoarrow.wkbx")])) 2 [] None.
Lemma wkbx_well_formed : well_formed wkbx.
Proof.
  apply (wf_simple $"z" None _ 2 [] [(name_key, $"geoarrow.wkbx")]); auto.
  - intros t H. discriminate H.
  - split; [|exists []; rewrite app_nil_r; reflexivity]. split; [reflexivity|]. constructor; [split; reflexivity | constructor].
Qed.
Lemma wkbx_recognised : exists v, schema_view_init wkbx = Ok v /\ shows v (Serialized Wkb Regular).
Proof. eexists. split; [vm_compute; reflexivity | split; reflexivity]. Qed.

Definition huge : schema :=
  Schema false (Some $"+w:4294967298") None (Some (metadata_bytes [(name_key, $"geoarrow.point")])) 2
    [Some (Schema false (Some $"g") (Some $"xy") None 0 [] None)] None.
Lemma huge_recognised : exists v, schema_view_init huge = Ok v /\ shows v (Native KPoint XY Interleaved).
Proof. eexists. split; [vm_compute; reflexivity | split; reflexivity]. Qed.

(** ** Together *)
Lemma set_together s es text s' : holds (sc_metadata s) es -> update s es text s' -> exists md es',
  s' = with_metadata s (Some md) /\ holds (Some md) es' /\ others metadata_key es' = others metadata_key es /\
  filter (fun e => same_text (fst e) metadata_key) es' = [(metadata_key, text)] /\
  (forall t v, well_formed s -> schema_view_init s = Ok v -> shows v t ->
    exists v', schema_view_init (with_metadata s (Some md)) = Ok v' /\ shows v' t /\
      viewed (gv_name v') (value_of name_key es) /\ viewed (gv_metadata v') (Some text)).
Proof.
  intros H U. assert (U' := U). destruct U as (es' & E & Hh & Ho & Hf).
  destruct (sc_metadata s') as [md|] eqn:Em.
  2:{ destruct Hh as [_ ->]. discriminate Hf. }
  exists md, es'. split; [exact E|]. split; [exact Hh|]. split; [exact Ho|]. split; [exact Hf|].
  intros t v W V S. rewrite <- E. exact (update_view s es text s' t v W H U' V S).
Qed.
Lemma set_spec s es m : holds (sc_metadata s) es -> Z.of_nat (length es) < 2147483647 ->
  0 <= m_edges m <= 5 -> 0 <= m_crs_type m <= 5 ->
  (m_crs_type m = CRS_NONE \/ carried_crs (m_crs m)) -> Z.of_nat (length (m_crs m)) <= 1000000000 ->
  exists md es' text,
    schema_set_geoarrow_metadata s m = Ok (with_metadata s (Some md)) /\ holds (Some md) es' /\
    others metadata_key es' = others metadata_key es /\
    filter (fun e => same_text (fst e) metadata_key) es' = [(metadata_key, text)] /\
    (forall past fuel, (length text < fuel)%nat -> exists crs,
      metadata_view_init past fuel text = Ok (Metadata (m_edges m) (m_crs_type m) crs) /\
      (m_crs_type m <> CRS_NONE ->
         if starts 34 (m_crs m) || starts 123 (m_crs m) then crs = m_crs m
         else forall o k, 0 <= k <= Z.of_nat (length o) ->
                exists o', unescape_crs crs (Some o) k = Ok (Z.of_nat (length (m_crs m)), Some o') /\ filled o k (m_crs m) o')) /\
    (forall t v, well_formed s -> schema_view_init s = Ok v -> shows v t ->
      exists v', schema_view_init (with_metadata s (Some md)) = Ok v' /\ shows v' t /\
        viewed (gv_name v') (value_of name_key es) /\ viewed (gv_metadata v') (Some text)).
Proof.
  intros Hh Hl H1 H2 Hc Hs. destruct (set_geoarrow s es m Hh Hl Hc Hs) as (s' & E & U).
  destruct (set_together s es _ s' Hh U) as (md & es' & -> & A & B & C & D).
  exists md, es', (serialized m). split; [exact E|]. split; [exact A|]. split; [exact B|]. split; [exact C|]. split; [|exact D].
  exact (proj2 (serialized_round_trips m (conj H1 H2) Hc)).
Qed.
Lemma set_from_spec s es source es0 : holds (sc_metadata s) es -> Z.of_nat (length es) < 2147483647 ->
  well_formed source -> holds (sc_metadata source) es0 ->
  let text := match value_of metadata_key es0 with Some t => t | None => [] end in
  schema_set_geoarrow_metadata_from s source = Err EINVAL \/
  exists md es',
    schema_set_geoarrow_metadata_from s source = Ok (with_metadata s (Some md)) /\ holds (Some md) es' /\
    others metadata_key es' = others metadata_key es /\
    filter (fun e => same_text (fst e) metadata_key) es' = [(metadata_key, text)] /\
    (forall t v, well_formed s -> schema_view_init s = Ok v -> shows v t ->
      exists v', schema_view_init (with_metadata s (Some md)) = Ok v' /\ shows v' t /\
        viewed (gv_name v') (value_of name_key es) /\ viewed (gv_metadata v') (Some text)).
Proof.
  intros Hh Hl W H0 text. destruct (set_geoarrow_from s es source es0 Hh Hl W H0) as [E|(s' & E & U)]; [left; exact E | right].
  destruct (set_together s es _ s' Hh U) as (md & es' & -> & A & B & C & D). exists md, es'. auto.
Qed.
Lemma set_from_succeeds s es source v : holds (sc_metadata s) es -> Z.of_nat (length es) < 2147483647 ->
  well_formed source -> schema_view_init source = Ok v ->
  exists s', schema_set_geoarrow_metadata_from s source = Ok s'.
Proof.
  intros Hh Hl W V. destruct (wf_holds source W) as (es0 & H0).
  destruct (set_geoarrow_from s es source es0 Hh Hl W H0) as [E|(s' & E & _)]; [|eauto]. exfalso.
  unfold schema_view_init in V. unfold schema_set_geoarrow_metadata_from in E.
  destruct (arrow_view_init source) as [w| | |] eqn:Ew; try discriminate. cbn [obind] in E.
  destruct (arrow_view_cases source W es0 H0) as [Ec|(w' & Ec & [_ VM] & _)]; [congruence|].
  assert (w' = w) as -> by congruence.
  assert (T : exists text, (match av_metadata w with Some t => or_ub (sv_bytes t) | None => Ok [] end) = Ok text /\ short text).
  { destruct (value_of metadata_key es0) as [t|] eqn:Ev.
    - destruct VM as (x & -> & [-> _]). exists t. split; [reflexivity|].
      unfold value_of in Ev. destruct (find _ es0) as [e|] eqn:Ef; [|discriminate]. injection Ev as <-.
      apply find_some in Ef as [Hin _]. destruct H0 as [[_ Hf] _]. exact (proj2 (proj1 (Forall_forall _ _) Hf e Hin)).
    - rewrite VM. exists []. split; reflexivity. }
  destruct T as (text & Et & Ht). rewrite Et in E. cbn [obind] in E.
  destruct (set_value s es text Hh Hl Ht) as (s' & E' & _). congruence.
Qed.
