(** * Proofs about the messages of kernels that are not started *)
From Verif Require Import Base BaseFacts Text TypesModel TypesSpec GeomSpec VisitorModel BufferModel ArrowModel WkbWriterModel WktWriterModel
  BuilderModel WktReaderModel ArrayReaderModel KernelModel ConversionModel MetadataModel MetadataSpec MetadataProofs MetadataReading MetadataReread SchemaModel SchemaSpec SchemaMetadata SchemaProofs SchemaRecognised SchemaViews
  KernelStartModel KernelStartSpec KernelStartProofs
  WktErrorModel WktErrorSpec MetadataErrorModel MetadataErrorSpec MetadataErrorProofs SchemaErrorModel SchemaErrorSpec SchemaErrorProofs KernelErrorModel KernelErrorSpec.
From Verif Require Import SchemaModel SchemaSpec.
Local Open Scope Z_scope.

(** ** The functions are those of KernelStartModel.v *)
Definition silenced {A} (x : spoken A) : outcome A := match x with Goes a _ => Ok a | Stops c _ => Err c | Lost => UB end.
(** Up to the difference between what is undefined and what does not end. *)
Definition alike {A} (o o' : outcome A) : Prop :=
  match o, o' with Ok a, Ok b => a = b | Err c, Err d => c = d | (UB | NoFuel), (UB | NoFuel) => True | _, _ => False end.
Lemma alike_refl {A} (o : outcome A) : alike o o.
Proof. destruct o; cbn; auto. Qed.
Lemma alike_onward {A B} (x : spoken A) o (k : A -> bytes -> spoken B) (k' : A -> outcome B) :
  alike (silenced x) o -> (forall a m, alike (silenced (k a m)) (k' a)) -> alike (silenced (onward x k)) (do a <- o; k' a).
Proof. destruct x, o; cbn; intros H K; try contradiction; subst; auto. Qed.
Lemma alike_quiet {A} (o : outcome A) m : alike (silenced (quiet o m)) o.
Proof. destruct o; cbn; auto. Qed.

Section Start.
  Variable print_double : N -> Z -> bytes.
  Variable junk : nat -> nat -> N.
  Variable nano : bytes.

  Lemma view_alike s m : well_formed s -> alike (silenced (s_view nano s m)) (schema_view_init s).
  Proof.
    intros W. rewrite <- (erase_view_init s W). unfold s_view. destruct (e_view_init s); cbn; auto.
  Qed.
  Lemma visitor_alike s m : well_formed s -> alike (silenced (s_visitor_start nano s m)) (visitor_start s).
  Proof.
    intros W. unfold s_visitor_start, visitor_start. apply alike_onward; [apply view_alike; exact W|]. intros v m'.
    destruct (_ =? _); [reflexivity|]. unfold s_reader_init. apply alike_onward; [apply view_alike; exact W|]. intros v' m2.
    destruct (ArrayReaderModel.reader_init _); cbn; auto.
  Qed.
  Lemma arg_alike options key required m : alike (silenced (s_arg_long options key required m)) (get_arg_long options key required).
  Proof.
    unfold s_arg_long, get_arg_long. apply alike_onward; [apply alike_quiet|]. intros [v|] m'; [|destruct required; reflexivity].
    apply alike_onward; [apply alike_quiet|]. intros b m2. apply alike_onward; [apply alike_quiet|]. reflexivity.
  Qed.
  Lemma box_alike s m : well_formed s -> (forall v text past, schema_view_init s = Ok v -> metadata_text (gv_metadata v) = Ok (text, past) -> Z.of_nat (length text) < 2 ^ 31) ->
    alike (silenced (s_box_out nano s m)) (box_out s).
  Proof.
    intros W Hl. unfold s_box_out, box_out.
    pose proof (view_alike s m W) as A. destruct (s_view nano s m) as [v m'|c m'|], (schema_view_init s) as [v'|c'| |]; cbn in A; try contradiction; subst; cbn [onward obind]; try apply A; try reflexivity.
    unfold s_schema_box, schema_box. specialize (Hl v'). destruct (metadata_text (gv_metadata v')) as [[text past]|c| |]; cbn [quiet onward obind]; try reflexivity; try exact I.
    specialize (Hl _ _ eq_refl eq_refl).
    destruct (metadata_view_init past (S (length text)) text) as [md|c| |] eqn:E; cbn [obind]; try reflexivity; try exact I.
    - destruct (negb _); [reflexivity|]. apply alike_onward; [apply alike_quiet|]. intros b m2. apply alike_quiet.
    - assert (c = EINVAL) as ->.
      { revert E. unfold metadata_view_init. destruct text; [discriminate|]. destruct (parse_json _ _ _ _) as [[? ?]| | |]; try discriminate.
        - destruct (skip_whitespace _); congruence.
        - congruence. }
      destruct (message_true past _ text m' Hl (Nat.lt_succ_diag_r _) E) as (message & t & -> & _). reflexivity.
  Qed.
  Lemma as_geoarrow_alike s options m : alike (silenced (s_as_geoarrow print_double junk false s options m)) (finish_start_as_geoarrow print_double junk s options).
  Proof.
    unfold s_as_geoarrow, finish_start_as_geoarrow. apply alike_onward; [apply arg_alike|]. intros t m'.
    apply alike_onward; [apply alike_quiet|]. intros z m2. apply alike_onward; [apply alike_quiet|]. intros [k w] m3.
    apply alike_onward; [apply alike_quiet|]. intros tmp m4. destruct (schema_set_geoarrow_metadata_from tmp s); cbn; auto.
  Qed.

  Lemma value_short s es key b : holds (sc_metadata s) es -> value_of key es = Some b -> Z.of_nat (length b) < 2 ^ 31.
  Proof.
    intros [[_ Hf] _] Hm. unfold value_of in Hm. destruct (find _ es) as [e|] eqn:E; [|discriminate]. injection Hm as <-. apply find_some in E as [Hi _].
    exact (proj2 (proj1 (Forall_forall _ _) Hf e Hi)).
  Qed.

  Lemma start_alike n s es options m : well_formed s -> holds (sc_metadata s) es ->
    alike (silenced (s_start print_double junk nano false n s options m)) (kernel_start print_double junk n s options).
  Proof.
    intros W H.
    assert (L : forall v text past, schema_view_init s = Ok v -> metadata_text (gv_metadata v) = Ok (text, past) -> Z.of_nat (length text) < 2 ^ 31).
    { intros v text past E Et. destruct (view_init_spec s es W H) as (_ & _ & N). destruct (N v E) as (_ & _ & Hv).
      destruct (view_text _ _ Hv) as (past' & Et'). rewrite Et in Et'. injection Et' as -> _.
      destruct (value_of metadata_key es) as [b|] eqn:Eb; [|reflexivity]. exact (value_short s es _ b H Eb). }
    destruct n; cbn [s_start]; unfold kernel_start; try reflexivity; (apply alike_onward; [apply visitor_alike; exact W|]); intros r m'; try reflexivity.
    - unfold arg_or. pose proof (arg_alike options $"precision" false m') as A.
      destruct (s_arg_long options $"precision" false m') as [a m2|c m2|], (get_arg_long options $"precision" false) as [a'|c'| |]; cbn in A; try contradiction; subst; cbn; auto.
      pose proof (arg_alike options $"max_element_size_bytes" false m2) as A.
      destruct (s_arg_long options $"max_element_size_bytes" false m2) as [b m3|c m3|], (get_arg_long options $"max_element_size_bytes" false) as [b'|c'| |]; cbn in A; try contradiction; subst; cbn; auto.
    - apply alike_onward; [apply as_geoarrow_alike|]. intros [[k w] out] m2. reflexivity.
    - apply alike_onward; [apply box_alike; assumption|]. reflexivity.
    - apply alike_onward; [apply box_alike; assumption|]. reflexivity.
  Qed.

  (** ** The message *)
  Lemma said_same text : is_c_string (snd (error_set text)) (firstn 1023 text) \/ In 0%N text.
  Proof. destruct (in_dec N.eq_dec 0%N text); [right; assumption | left; apply error_set_string; assumption]. Qed.

  Definition prints (message text : bytes) : Prop := exists r, message = firstn 1023 text ++ [0%N] ++ r.
  Lemma prints_set text : prints (snd (error_set text)) text.
  Proof. destruct (error_set_text text) as (r & E). exists r. exact E. Qed.

  (** A computation of which every stop says something true and which leaves the message alone if it goes on. *)
  Definition honest {A} (m : bytes) (P : bytes -> Prop) (x : spoken A) : Prop :=
    match x with Goes _ m' => m' = m | Stops c message => c = EINVAL /\ (exists text, prints message text /\ P text) | Lost => True end.
  Lemma honest_onward {A B} m P (x : spoken A) (k : A -> bytes -> spoken B) :
    honest m P x -> (forall a, x = Goes a m -> honest m P (k a m)) -> honest m P (onward x k).
  Proof. destruct x as [a m'|c m'|]; cbn; auto. intros -> K. exact (K a eq_refl). Qed.
  Lemma honest_quiet {A} m P (o : outcome A) : (forall c, o <> Err c) -> honest m P (quiet o m).
  Proof. destruct o as [a|c| |]; cbn; auto. intros H. destruct (H c eq_refl). Qed.
  Lemma honest_stop {A} m (P : bytes -> Prop) text : P text -> honest (A := A) m P (stops_with EINVAL text).
  Proof. intros H. split; [reflexivity|]. exists text. split; [apply prints_set | exact H]. Qed.

  Lemma view_accepts s v m : well_formed s -> schema_view_init s = Ok v -> s_view nano s m = Goes v m.
  Proof.
    intros W E. rewrite <- (erase_view_init s W) in E. unfold s_view. destruct (e_view_init s); cbn in E; congruence.
  Qed.
  Lemma visitor_goes s t text m : schema_of s t text -> exists r, s_visitor_start nano s m = Goes r m.
  Proof.
    intros Hs. destruct (schema_of_view s t text Hs) as (v & E & Et & _). destruct Hs as (es & W & _ & He & _).
    unfold s_visitor_start. rewrite (view_accepts s v m W E). cbn [onward]. rewrite Et, type_initialised. unfold s_reader_init.
    rewrite (view_accepts s v m W E). cbn [onward]. rewrite Et. destruct (reader_exists t He) as (r & ->). exists r. reflexivity.
  Qed.

  Lemma arg_honest options os key required m (P : bytes -> Prop) : holds options os ->
    (required = true -> value_of key os = None -> P ($"Missing required parameter '" ++ key ++ $"'")) ->
    honest m P (s_arg_long options key required m).
  Proof.
    intros H HP. unfold s_arg_long. pose proof (get_value_spec options os key H) as G.
    destruct G as (x & -> & G). destruct (value_of key os) as [text|].
    - destruct G as (v & -> & Hv & _). cbn [quiet onward]. rewrite Hv. cbn [or_ub quiet onward]. unfold atoi.
      destruct (strtol _) as [[z ?]|]; [destruct (_ && _); reflexivity || exact I | reflexivity].
    - subst x. cbn [quiet onward]. destruct required; [|reflexivity]. apply honest_stop. apply HP; reflexivity.
  Qed.

  Lemma reads_same past fuel b m : metadata_view_init past fuel b = Ok m -> says b m.
  Proof.
    intros E past' fuel' Hf. apply view_init_ok in E as [[-> ->]|(ms & m0 & Hd & Hm & ->)]; [reflexivity|].
    rewrite (view_init_loose past' fuel' ms) by assumption. rewrite Hm. reflexivity.
  Qed.

  Lemma box_honest s t text m (P : bytes -> Prop) : schema_of s t text ->
    (forall b md, text = Some b -> says b md -> Z.of_nat (length (m_crs md)) <= 1000000000) ->
    (forall b x, text = Some b -> metadata_complaint accepted b x -> P x) ->
    (forall b md, text = Some b -> says b md -> m_edges md <> EDGE_PLANAR -> P $"box kernel does not support non-planar edges") ->
    honest m P (s_box_out nano s m).
  Proof.
    intros Hs Hl Pm Pe. pose proof (text_short s t text Hs) as Hshort.
    destruct (schema_of_view s t text Hs) as (v & Ev & _ & Vm). destruct (view_text _ _ Vm) as (past & Et).
    assert (W : well_formed s) by (destruct Hs as (es & W & _); exact W).
    assert (Hl' : forall md, says (text_of text) md -> Z.of_nat (length (m_crs md)) <= 1000000000).
    { intros md Hm. destruct text as [b|]; [exact (Hl b md eq_refl Hm)|]. specialize (Hm None 1%nat (Nat.lt_succ_diag_r _)). vm_compute in Hm. injection Hm as <-. vm_compute. discriminate. }
    assert (Pe' : forall md, says (text_of text) md -> m_edges md <> EDGE_PLANAR -> P $"box kernel does not support non-planar edges").
    { intros md Hm He. destruct text as [b|]; [exact (Pe b md eq_refl Hm He)|]. exfalso. specialize (Hm None 1%nat (Nat.lt_succ_diag_r _)). vm_compute in Hm. injection Hm as <-. apply He. reflexivity. }
    unfold s_box_out. rewrite (view_accepts s v m W Ev). cbn [onward]. unfold s_schema_box. rewrite Et. cbn [quiet onward].
    destruct (metadata_view_init past (S (length (text_of text))) (text_of text)) as [md|c| |] eqn:E; try exact I.
    - pose proof (reads_same _ _ _ _ E) as Hm. destruct (Z.eqb_spec (m_edges md) EDGE_PLANAR) as [He|He]; cbn [negb]; [|apply honest_stop; exact (Pe' md Hm He)].
      destruct (box_out_says s t text md Hs Hm He (Hl' md Hm)) as (out & text' & Eo & _).
      unfold box_out in Eo. rewrite Ev in Eo. cbn [obind] in Eo. unfold schema_box in Eo. rewrite Et in Eo. cbn [obind] in Eo. rewrite E in Eo. cbn [obind] in Eo.
      rewrite He, Z.eqb_refl in Eo. cbn [negb] in Eo. destruct (schema_init_extension TYPE_BOX) as [b|c| |]; cbn [obind] in Eo; try discriminate.
      cbn [quiet onward]. rewrite Eo. reflexivity.
    - assert (c = EINVAL) as ->.
      { revert E. unfold metadata_view_init. destruct (text_of text); [discriminate|]. destruct (parse_json _ _ _ _) as [[? ?]| | |]; try discriminate.
        - destruct (skip_whitespace _); congruence.
        - congruence. }
      destruct (message_true past _ (text_of text) m Hshort (Nat.lt_succ_diag_r _) E) as (message & x & -> & (_ & r & Hr) & Hc). cbn [quiet onward].
      split; [reflexivity|]. exists x. split; [exists r; exact Hr|]. destruct text as [b|]; [exact (Pm b x eq_refl Hc) | discriminate E].
  Qed.

  Lemma as_geoarrow_honest again s t text options os m (P : bytes -> Prop) : (forall i j, is_byte (junk i j)) -> schema_of s t text -> holds options os ->
    (value_of $"type" os <> None -> exists t', exists_type t' /\ writable t' /\ option_is os $"type" None (type_id t')) ->
    (value_of $"type" os = None -> P $"Missing required parameter 'type'") ->
    (again = true -> P $"Expected exactly one call to start(as_geoarrow)") ->
    honest m P (s_as_geoarrow print_double junk again s options m).
  Proof.
    intros Hj Hs Ho Ht Pt Pa. unfold s_as_geoarrow.
    apply honest_onward; [apply (arg_honest options os); [exact Ho | intros _ H; exact (Pt H)]|]. intros z Ez.
    pose proof (arg_alike options $"type" true m) as A. rewrite Ez in A. cbn [silenced] in A.
    destruct (get_arg_long options $"type" true) as [z'|c| |] eqn:Eg; cbn in A; try contradiction. subst z'.
    destruct (value_of $"type" os) as [b|] eqn:Eb.
    2:{ pose proof (arg_long options os $"type" true Ho) as L. rewrite Eb in L. rewrite L in Eg. discriminate. }
    destruct (Ht ltac:(discriminate)) as (t' & He & Hw & Hi).
    pose proof (arg_required options os _ _ Ho Hi) as Er. rewrite Er in Eg. injection Eg as <-. cbn [or_ub quiet onward].
    destruct again; [apply honest_stop; apply Pa; reflexivity|].
    destruct (start_as_geoarrow print_double junk s t text options os t' Hj Hs Ho He Hi Hw) as (k & r & w & out & E & _).
    unfold kernel_start in E. destruct (visitor_start s) as [r0|c| |]; cbn [obind] in E; try discriminate.
    unfold finish_start_as_geoarrow in E. rewrite Er in E. cbn [obind or_ub] in E.
    destruct (as_geoarrow print_double junk (type_id t')) as [[k0 w0]|c| |]; cbn [obind] in E; try discriminate. cbn [quiet onward].
    destruct (schema_init_extension (type_id t')) as [tmp|c| |]; cbn [obind] in E; try discriminate. cbn [quiet onward].
    destruct (schema_set_geoarrow_metadata_from tmp s) as [o|c| |]; cbn [obind] in E; try discriminate. reflexivity.
  Qed.

  Lemma kernel_name_of name n : kernel_init name = Ok n -> In (name, n) names.
  Proof. intros E. destruct (kernel_names name) as [[E' _]|(n' & E' & H)]; congruence. Qed.

  Lemma schema_viewed s es v : well_formed s -> holds (sc_metadata s) es ->
    (forall b, value_of $"ARROW:extension:name" es = Some b -> firstn 12 b = $"geoarrow.wkb" -> b = $"geoarrow.wkb") ->
    schema_view_init s = Ok v -> exists t, schema_of s t (value_of $"ARROW:extension:metadata" es).
  Proof.
    intros W H Hw E. destruct (view_init_spec s es W H) as (_ & V & N). destruct (N v E) as ((t & He & Hs) & _).
    destruct (proj1 (V t) (ex_intro _ v (conj E Hs))) as (_ & (b & Hb & Ht) & Hst).
    exists t, es. split; [exact W|]. split; [exact H|]. split; [exact He|]. split; [exact Hst|]. split; [|reflexivity].
    refine (eq_trans Hb _). f_equal. destruct t as [k d l|[] w]; cbn [taken type_name] in *; try exact Ht. exact (Hw b Hb Ht).
  Qed.

  Lemma view_told s before : schema_told nano before s = match s_view nano s before with Goes _ m => Ok (0, m) | Stops c m => Ok (c, m) | Lost => UB end.
  Proof. unfold schema_told, s_view, stops_with. destruct (e_view_init s); reflexivity. Qed.
  Lemma view_cases s es before : well_formed s -> holds (sc_metadata s) es ->
    (forall k c, within k s c -> short (sc_children c)) ->
    (forall k c t, within k s c -> sc_format c = Some ($"+w:" ++ t) -> length (sc_children c) = 1%nat) ->
    (exists v, schema_view_init s = Ok v) \/
    (arrow_view_init s = Err EINVAL /\ s_view nano s before = Stops EINVAL nano) \/
    (exists message text r, s_view nano s before = Stops EINVAL message /\ message = firstn 1023 text ++ [0%N] ++ r /\
       (schema_complaint s (value_of $"ARROW:extension:name" es) text \/
        (value_of $"ARROW:extension:name" es = Some $"geoarrow.box" /\ misnumbered s text))).
  Proof.
    intros W H few single.
    assert (G : forall message, schema_told nano before s = Ok (EINVAL, message) -> s_view nano s before = Stops EINVAL message).
    { intros message. rewrite view_told. destruct (s_view nano s before) as [v m|c m|]; [discriminate | intros [= -> ->]; reflexivity | discriminate]. }
    destruct (told_cases nano before s es W H few single) as [(v & Ev & _)|[(EA & Ev & ET)|(Ev & message & text & r & ET & Em & C)]].
    - left. exists v. exact Ev.
    - right. left. split; [exact EA | exact (G _ ET)].
    - right. right. exists message, text, r. split; [exact (G _ ET)|]. split; [exact Em | exact C].
  Qed.

  Definition told_truly {A} (before : bytes) (s : schema) (P : bytes -> Prop) (x : spoken A) : Prop :=
    match x with
    | Goes _ m => m = before
    | Stops c message => c = EINVAL /\ ((message = nano /\ arrow_view_init s = Err EINVAL) \/
        exists text r, message = firstn 1023 text ++ [0%N] ++ r /\ P text)
    | Lost => True
    end.

  Theorem start_says again name n s es options os before : (forall i j, is_byte (junk i j)) -> kernel_init name = Ok n ->
    well_formed s -> holds (sc_metadata s) es -> holds options os ->
    (forall b, value_of $"ARROW:extension:name" es = Some b -> firstn 12 b = $"geoarrow.wkb" -> b = $"geoarrow.wkb") ->
    (forall k c, within k s c -> short (sc_children c)) ->
    (forall k c t, within k s c -> sc_format c = Some ($"+w:" ++ t) -> length (sc_children c) = 1%nat) ->
    (value_of $"ARROW:extension:name" es = Some $"geoarrow.box" -> forall text, ~ misnumbered s text) ->
    (forall b m, value_of $"ARROW:extension:metadata" es = Some b -> says b m -> Z.of_nat (length (m_crs m)) <= 1000000000) ->
    (value_of $"type" os <> None -> exists t, exists_type t /\ writable t /\ option_is os $"type" None (type_id t)) ->
    told_truly before s (start_complaint accepted again name s es os) (s_start print_double junk nano again n s options before).
  Proof.
    intros Hj Hn W H Ho Hw few single Hb Hcrs Ht. apply kernel_name_of in Hn.
    assert (Hon : forall x : spoken (started * schema), honest before (start_complaint accepted again name s es os) x ->
      told_truly before s (start_complaint accepted again name s es os) x).
    { intros [a m|c m|]; cbn [honest told_truly]; [auto | intros (-> & text & (r & R) & C); split; [reflexivity|]; right; exists text, r; auto | auto]. }
    destruct n; try (apply Hon; reflexivity).
    all: cbn [s_start]; unfold s_visitor_start.
    all: assert (Hv : ~ In name [$"void"; $"void_agg"])
      by (intros I; cbn in Hn, I; repeat (destruct Hn as [Hn|Hn]; [first [discriminate Hn | injection Hn as <-; destruct I as [I|[I|[]]]; discriminate I]|]); contradiction).
    all: destruct (view_cases s es before W H few single) as [(v & Ev)|[(EA & ET)|(message & text & r & ET & Em & C)]];
      [|rewrite ET; cbn [onward told_truly]; split; [reflexivity|]; left; split; [reflexivity | exact EA]
       |rewrite ET; cbn [onward told_truly]; split; [reflexivity|]; right; exists text, r; split; [exact Em|];
        destruct C as [C|[C1 C2]]; [exact (about_schema _ _ _ _ _ _ text Hv C) | destruct (Hb C1 text C2)]].
    all: apply Hon; destruct (schema_viewed s es v W H Hw Ev) as (t & Hs).
    all: fold (s_visitor_start nano s before); destruct (visitor_goes s t _ before Hs) as (rd & ->); cbn [onward]; try reflexivity.
    - apply honest_onward; [apply (arg_honest options os); [exact Ho | discriminate]|]. intros p _.
      apply honest_onward; [apply (arg_honest options os); [exact Ho | discriminate]|]. reflexivity.
    - assert (name = $"as_geoarrow") as -> by (cbn in Hn; repeat (destruct Hn as [Hn|Hn]; [first [discriminate Hn | injection Hn as <-; reflexivity]|]); contradiction).
      apply honest_onward; [apply (as_geoarrow_honest again s t _ options os before _ Hj Hs Ho Ht); [apply about_type | apply about_second]; reflexivity|].
      intros [[k w] out] _. reflexivity.
    - assert (Hi : In name [$"box"; $"box_agg"]) by (cbn in Hn; repeat (destruct Hn as [Hn|Hn]; [first [discriminate Hn | injection Hn as <-; left; reflexivity]|]); contradiction).
      apply honest_onward; [|reflexivity]. apply (box_honest s t _ before _ Hs Hcrs).
      + intros b x Eb Hx. exact (about_metadata _ _ _ _ _ _ b x Hi Eb Hx).
      + intros b md Eb Hm He. exact (about_edges _ _ _ _ _ _ b md Hi Eb Hm He).
    - assert (Hi : In name [$"box"; $"box_agg"]) by (cbn in Hn; repeat (destruct Hn as [Hn|Hn]; [first [discriminate Hn | injection Hn as <-; right; left; reflexivity]|]); contradiction).
      apply honest_onward; [|reflexivity]. apply (box_honest s t _ before _ Hs Hcrs).
      + intros b x Eb Hx. exact (about_metadata _ _ _ _ _ _ b x Hi Eb Hx).
      + intros b md Eb Hm He. exact (about_edges _ _ _ _ _ _ b md Hi Eb Hm He).
  Qed.

  Theorem start_message name n s es options os before : (forall i j, is_byte (junk i j)) -> kernel_init name = Ok n ->
    well_formed s -> holds (sc_metadata s) es -> holds options os ->
    (forall b, value_of $"ARROW:extension:name" es = Some b -> firstn 12 b = $"geoarrow.wkb" -> b = $"geoarrow.wkb") ->
    (forall k c, within k s c -> short (sc_children c)) ->
    (forall k c t, within k s c -> sc_format c = Some ($"+w:" ++ t) -> length (sc_children c) = 1%nat) ->
    (value_of $"ARROW:extension:name" es = Some $"geoarrow.box" -> forall text, ~ misnumbered s text) ->
    (forall b m, value_of $"ARROW:extension:metadata" es = Some b -> says b m -> Z.of_nat (length (m_crs m)) <= 1000000000) ->
    (value_of $"type" os <> None -> exists t, exists_type t /\ writable t /\ option_is os $"type" None (type_id t)) ->
    match kernel_start print_double junk n s options with
    | Ok _ => start_told print_double junk nano false n s options before = Ok (0, before)
    | Err c => c = EINVAL /\ exists message, start_told print_double junk nano false n s options before = Ok (EINVAL, message) /\
        ((message = nano /\ arrow_view_init s = Err EINVAL) \/
         exists text r, message = firstn 1023 text ++ [0%N] ++ r /\ start_complaint accepted false name s es os text)
    | _ => start_told print_double junk nano false n s options before = UB
    end.
  Proof.
    intros Hj Hn W H Ho Hw few single Hb Hcrs Ht.
    pose proof (start_says false name n s es options os before Hj Hn W H Ho Hw few single Hb Hcrs Ht) as T.
    pose proof (start_alike n s es options before W H) as A. unfold start_told.
    destruct (s_start print_double junk nano false n s options before) as [a m|c m|], (kernel_start print_double junk n s options) as [a'|c'| |];
      cbn [silenced alike told_truly] in A, T; try contradiction; try reflexivity.
    - subst m. reflexivity.
    - subst c'. destruct T as (-> & T). split; [reflexivity|]. exists m. split; [reflexivity | exact T].
  Qed.

  Theorem start_twice s t text options os t' before : (forall i j, is_byte (junk i j)) -> schema_of s t text -> holds options os ->
    exists_type t' -> option_is os $"type" None (type_id t') ->
    exists r, start_told print_double junk nano true NAsGeoarrow s options before =
      Ok (EINVAL, $"Expected exactly one call to start(as_geoarrow)" ++ [0%N] ++ r).
  Proof.
    intros Hj Hs Ho He Hi. unfold start_told. cbn [s_start]. destruct (visitor_goes s t text before Hs) as (rd & ->). cbn [onward].
    unfold s_as_geoarrow. pose proof (arg_honest options os $"type" true before (fun _ => value_of $"type" os = None) Ho (fun _ h => h)) as G.
    pose proof (arg_alike options $"type" true before) as A. rewrite (arg_required options os _ _ Ho Hi) in A.
    destruct (s_arg_long options $"type" true before) as [z m|c m|]; cbn [silenced alike] in A; try contradiction. subst z. cbn [onward or_ub quiet].
    destruct (error_set_text $"Expected exactly one call to start(as_geoarrow)") as (r & R). exists r. unfold stops_with. rewrite R. reflexivity.
  Qed.

  Theorem start_silent s t text options os t' before : schema_of s t text -> holds options os ->
    exists_type t' -> option_is os $"type" None (type_id t') -> ~ writable t' ->
    exists c, kernel_start print_double junk NAsGeoarrow s options = Err c /\ (c = EINVAL \/ c = ENOTSUP) /\
      start_told print_double junk nano false NAsGeoarrow s options before = Ok (c, before).
  Proof.
    intros Hs Ho He Hi Hw. destruct (start_as_geoarrow_unwritable print_double junk s t text options os t' Hs Ho He Hi Hw) as (c & E & Hc).
    exists c. split; [exact E|]. split; [exact Hc|]. unfold start_told. cbn [s_start]. destruct (visitor_goes s t text before Hs) as (rd & ->). cbn [onward].
    unfold s_as_geoarrow. pose proof (arg_honest options os $"type" true before (fun _ => value_of $"type" os = None) Ho (fun _ h => h)) as G.
    pose proof (arg_alike options $"type" true before) as A. rewrite (arg_required options os _ _ Ho Hi) in A.
    destruct (s_arg_long options $"type" true before) as [z m|c0 m|]; cbn [silenced alike] in A; try contradiction. subst z. cbn [honest] in G. subst m. cbn [onward or_ub quiet].
    destruct (unwritable_type print_double junk t' He Hw) as (c' & E' & Hc'). rewrite E'. cbn [quiet onward].
    destruct (visitor_starts s t text Hs) as (r & Er & _). unfold kernel_start in E. rewrite Er in E. cbn [obind] in E. unfold finish_start_as_geoarrow in E.
    rewrite (arg_required options os _ _ Ho Hi) in E. cbn [obind or_ub] in E. rewrite E' in E. cbn [obind] in E. congruence.
  Qed.
End Start.

(** ** Scalar functions *)
Lemma scalar_names name before : ~ In 0%N name ->
  (name = $"void" -> scalar_factory_told name before = (0, before)) /\
  (name <> $"void" -> exists message, scalar_factory_told name before = (ENOTSUP, message) /\
     is_c_string message (firstn 1023 ($"GeoArrow C scalar implementation with name '" ++ name ++ $"' does not exist"))).
Proof.
  intros Hn. unfold scalar_factory_told. split; [intros ->; reflexivity|]. intros H.
  destruct (same_bytes name $"void") eqn:E; [apply same_bytes_eq in E; contradiction|]. eexists. split; [reflexivity|].
  apply error_set_string. apply not_nul_around; [| exact Hn |]; intros I; vm_compute in I; repeat (destruct I as [I|I]; [discriminate|]); exact I.
Qed.
