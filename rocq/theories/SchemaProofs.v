(** * Proofs about schemas: recognising them *)
From Verif Require Import Base BaseFacts Text BufferModel TypesModel TypesSpec MetadataModel MetadataProofs SchemaModel SchemaSpec SchemaMetadata.
Local Open Scope Z_scope.

(** ** Names *)
Definition views (v : strview) (b : bytes) : Prop := sv_bytes v = Some b /\ sv_size v = Z.of_nat (length b).

Lemma same_text_refl a : same_text a a = true.
Proof. apply same_text_eq. reflexivity. Qed.
Lemma same_text_sym a b : same_text a b = same_text b a.
Proof.
  destruct (same_text a b) eqn:E.
  - apply same_text_eq in E. subst. symmetry. apply same_text_refl.
  - destruct (same_text b a) eqn:F; [|reflexivity]. apply same_text_eq in F. subst. rewrite same_text_refl in E. discriminate.
Qed.

Lemma views_prefix v b n : views v b -> (n <= length b)%nat -> slice (sv_memory v) (sv_offset v) n = Some (firstn n b).
Proof.
  intros [Hb Hs] Hn. unfold sv_bytes in Hb. rewrite Hs in Hb. destruct (Z.ltb_spec (Z.of_nat (length b)) 0); [lia|].
  rewrite Nat2Z.id in Hb. unfold slice in *. destruct (_ && _) eqn:E in Hb; [|discriminate].
  injection Hb as Hb. assert (E' : (0 <=? sv_offset v) && (sv_offset v + Z.of_nat n <=? Z.of_nat (length (sv_memory v))) = true) by lia.
  rewrite E'. f_equal. rewrite <- Hb, firstn_firstn. f_equal. lia.
Qed.
Lemma named_spec v b name : views v b -> named v name = Ok (same_text b name).
Proof.
  intros H. unfold named. rewrite (proj2 H). destruct (Z.eqb_spec (Z.of_nat (length b)) (Z.of_nat (length name))) as [E|E].
  - rewrite (views_prefix v b _ H) by lia. cbn [or_ub obind]. f_equal.
    rewrite firstn_all2 by lia. rewrite same_bytes_text. apply same_text_sym.
  - f_equal. symmetry. destruct (same_text b name) eqn:F; [|reflexivity]. apply same_text_eq in F. subst. contradiction.
Qed.
Lemma named_prefix_spec v b name : views v b ->
  named_prefix v name = Ok (same_text (firstn (length name) b) name).
Proof.
  intros H. unfold named_prefix. rewrite (proj2 H). destruct (Z.leb_spec (Z.of_nat (length name)) (Z.of_nat (length b))) as [E|E].
  - rewrite (views_prefix v b _ H) by lia. cbn [or_ub obind]. f_equal. rewrite same_bytes_text. apply same_text_sym.
  - f_equal. symmetry. destruct (same_text _ name) eqn:F; [|reflexivity]. apply same_text_eq in F.
    apply (f_equal (@length N)) in F. rewrite firstn_length in F. lia.
Qed.

(** ** Well-formed schemas *)
Lemma wf_format s : well_formed s -> exists f, sc_format s = Some f.
Proof. intros []. eexists. reflexivity. Qed.
Lemma wf_children s : well_formed s -> exists cs, sc_children s = map Some cs /\ forall c, In c cs -> well_formed c.
Proof. intros []. eexists. split; [reflexivity | assumption]. Qed.
Lemma wf_live s : well_formed s -> sc_released s = false.
Proof. intros []. reflexivity. Qed.
Lemma wf_holds s : well_formed s -> exists es, holds (sc_metadata s) es.
Proof. intros []. eexists. eassumption. Qed.
Lemma wf_child s c : well_formed s -> In (Some c) (sc_children s) -> well_formed c.
Proof.
  intros H Hin. destruct (wf_children s H) as (cs & E & Hc). rewrite E in Hin. apply in_map_iff in Hin as (x & [= ->] & Hx). auto.
Qed.
Lemma wf_nth s i c : well_formed s -> nth_error (sc_children s) i = Some c -> exists x, c = Some x /\ well_formed x.
Proof.
  intros H E. apply nth_error_In in E. destruct (wf_children s H) as (cs & Ec & Hc). rewrite Ec in E.
  apply in_map_iff in E as (x & <- & Hx). eauto.
Qed.

Lemma validate_wf s n : well_formed s ->
  validate_n_children s n = Ok tt /\ match n with Some n => n_children s = n | None => True end \/
  validate_n_children s n = Err EINVAL /\ match n with Some n => n_children s <> n | None => False end.
Proof.
  intros H. destruct (wf_children s H) as (cs & E & Hc). unfold validate_n_children.
  assert (F : forallb (fun c => match c with Some c => negb (sc_released c) | None => false end) (sc_children s) = true).
  { rewrite E. apply forallb_forall. intros x Hx. apply in_map_iff in Hx as (y & <- & Hy). rewrite (wf_live y (Hc y Hy)). reflexivity. }
  rewrite F. destruct n as [n|].
  - destruct (Z.eqb_spec (n_children s) n); cbn [negb]; auto.
  - auto.
Qed.
Definition quiet {A} (o : outcome A) : Prop := (exists a, o = Ok a) \/ o = Err EINVAL.
Lemma validate_quiet s n : well_formed s -> quiet (validate_n_children s n).
Proof. intros H. destruct (validate_wf s n H) as [[-> _]|[-> _]]; [left; eauto | right; reflexivity]. Qed.
Lemma map_quiet s : well_formed s -> quiet (validate_map s).
Proof.
  intros H. unfold validate_map. destruct (validate_wf s (Some 1) H) as [[-> E]|[-> _]]; [|right; reflexivity]. cbn [obind].
  unfold child. destruct (nth_error (sc_children s) 0) as [c|] eqn:En.
  2:{ apply nth_error_None in En. unfold n_children in E. lia. }
  destruct (wf_nth s 0 c H En) as (x & -> & Hx). cbn [obind].
  destruct (Z.eqb_spec (n_children x) 2) as [E2|]; cbn [negb]; [|right; reflexivity].
  unfold format_of. destruct (wf_format x Hx) as (f & ->). cbn [or_ub obind].
  destruct (negb (same_bytes f $"+s")); [right; reflexivity|].
  destruct (Z.testbit (sc_flags x) 1); [right; reflexivity|].
  destruct (nth_error (sc_children x) 0) as [c|] eqn:Ec.
  2:{ apply nth_error_None in Ec. unfold n_children in E2. lia. }
  destruct (wf_nth x 0 c Hx Ec) as (y & -> & Hy). cbn [obind].
  destruct (Z.testbit (sc_flags y) 1); [right; reflexivity | left; eauto].
Qed.

(** What the view says about the names. *)
Definition view_names (v : arrow_view) (es : list (bytes * bytes)) : Prop :=
  match value_of name_key es with
  | None => av_name v = None
  | Some n => exists w, av_name v = Some w /\ views w n
  end /\
  match value_of metadata_key es with
  | None => av_metadata v = None
  | Some n => exists w, av_metadata v = Some w /\ views w n
  end.

(** The parsed format, the type and the number of children behind a view. *)
Definition view_behind (s : schema) (v : arrow_view) : Prop :=
  exists f p, sc_format s = Some f /\ parse_format f (n_children s) = Some p /\ pa_rest p = [] /\
    av_type v = view_type s p /\ av_fixed_size v = pa_fixed_size p.

Lemma quiet_cases {A} (o : outcome A) : quiet o -> (exists a, o = Ok a) \/ o = Err EINVAL.
Proof. exact (fun H => H). Qed.

Lemma arrow_view_cases s : well_formed s -> forall es, holds (sc_metadata s) es ->
  arrow_view_init s = Err EINVAL \/
  exists v, arrow_view_init s = Ok v /\ view_names v es /\ view_behind s v.
Proof.
  induction 1 as [f name md flags cs dict es0 Hw Hd Hfl Ho Hm Hh Hc IHc Hdd IHd]. intros es Hes. cbn [sc_metadata] in Hes.
  assert (W : well_formed (Schema false (Some f) name md flags (map Some cs) dict)) by (econstructor; eassumption).
  cbn [arrow_view_init]. destruct f as [|f0 f]; [left; reflexivity|].
  set (s := Schema false (Some (f0 :: f)) name md flags (map Some cs) dict) in *.
  destruct (parse_format (f0 :: f) (n_children s)) as [p|] eqn:Ep; [|left; reflexivity].
  destruct (pa_rest p) eqn:Er; [|left; reflexivity].
  cbv zeta.
  set (d := match dict with Some d => Some (arrow_view_init d) | None => None end).
  assert (Q : forall t, quiet (validate s p d t)).
  { intros t. unfold validate. destruct t; try (apply validate_quiet; exact W).
    - destruct (pa_fixed_size p <=? 0); [right; reflexivity | apply validate_quiet; exact W].
    - apply map_quiet. exact W.
    - destruct (pa_storage p); try (right; reflexivity). subst d. destruct dict as [d|]; [|right; reflexivity].
      destruct (wf_holds d (Hdd d eq_refl)) as (esd & Hd').
      destruct (IHd d eq_refl esd Hd') as [->|(v & -> & _)]; [right; reflexivity | left; eexists; reflexivity]. }
  destruct (Q (pa_storage p)) as [[a ->]| ->]; [|left; reflexivity]. cbn [obind].
  destruct (Q (view_type s p)) as [[a' ->]| ->]; [|left; reflexivity]. cbn [obind].
  destruct (negb _); [left; reflexivity|]. destruct (_ && _); [left; reflexivity|]. destruct (_ && _); [left; reflexivity|].
  destruct (get_value_spec md es name_key Hes) as (r1 & -> & H1). cbn [obind].
  destruct (get_value_spec md es metadata_key Hes) as (r2 & -> & H2). cbn [obind].
  right. eexists. split; [reflexivity|]. split.
  - split; cbn [av_name av_metadata].
    + destruct (value_of name_key es); [destruct H1 as (w & -> & Hw1); eauto | exact H1].
    + destruct (value_of metadata_key es); [destruct H2 as (w & -> & Hw1); eauto | exact H2].
  - exists (f0 :: f), p. repeat split; assumption.
Qed.

(** A view exists for the storage of GeoArrow types. *)
Lemma flags_fine flags : 0 <= flags < 8 -> negb (Z.land flags (Z.lnot 7) =? 0) = false.
Proof.
  intros H. assert (flags = 0 \/ flags = 1 \/ flags = 2 \/ flags = 3 \/ flags = 4 \/ flags = 5 \/ flags = 6 \/ flags = 7) as C by lia.
  destruct C as [->|[->|[->|[->|[->|[->|[->| ->]]]]]]]; reflexivity.
Qed.
Definition childless (t : arrow_type) : bool :=
  match t with TString | TLargeString | TStringView | TBinary | TLargeBinary | TBinaryView => true | _ => false end.
Lemma arrow_view_ok s f t z : well_formed s -> sc_format s = Some f -> f <> [] ->
  ~ In f [$"c"; $"C"; $"s"; $"S"; $"i"; $"I"; $"l"; $"L"] -> f <> $"+m" ->
  parse_format f (n_children s) = Some (Parsed t t z []) ->
  (childless t = true /\ n_children s = 0 \/ (t = TList \/ t = TFixedSizeList) /\ n_children s = 1 \/ t = TStruct) ->
  exists v, arrow_view_init s = Ok v /\ av_type v = t /\ av_fixed_size v = z.
Proof.
  intros W Ef Hf Hi Hmap Ep Ht. destruct W as [f' name md flags cs dict es0 Hw Hd Hfl Ho Hm Hh Hc Hdd].
  cbn [sc_format] in Ef. injection Ef as ->.
  assert (dict = None) as ->.
  { destruct dict; [|reflexivity]. exfalso. apply Hi. apply Hd. discriminate. }
  assert (W : well_formed (Schema false (Some f) name md flags (map Some cs) None)) by (econstructor; eassumption).
  cbn [arrow_view_init]. destruct f as [|f0 f]; [contradiction|].
  set (s := Schema false (Some (f0 :: f)) name md flags (map Some cs) None) in *.
  rewrite Ep. cbv zeta. cbn [pa_rest pa_storage pa_type pa_fixed_size].
  change (view_type s {| pa_storage := t; pa_type := t; pa_fixed_size := z; pa_rest := [] |}) with t.
  assert (V : validate s (Parsed t t z []) None t = Ok tt).
  { unfold validate. destruct Ht as [[Hc0 Hn]|[[[->| ->] Hn]| ->]].
    - destruct t; try discriminate; (destruct (validate_wf s (Some 0) W) as [[-> _]|[_ Hx]]; [reflexivity | contradiction]).
    - destruct (validate_wf s (Some 1) W) as [[-> _]|[_ Hx]]; [reflexivity | contradiction].
    - destruct (validate_wf s (Some 1) W) as [[-> _]|[_ Hx]]; [reflexivity | contradiction].
    - destruct (validate_wf s None W) as [[-> _]|[_ Hx]]; [reflexivity | contradiction]. }
  rewrite V. cbn [obind]. rewrite (flags_fine flags Hfl).
  assert (T0 : Z.testbit flags 0 = false). { destruct (Z.testbit flags 0) eqn:E; [|reflexivity]. exfalso. exact (Ho eq_refl eq_refl). }
  assert (T2 : Z.testbit flags 2 = false). { destruct (Z.testbit flags 2) eqn:E; [|reflexivity]. exfalso. apply Hmap. exact (Hm eq_refl). }
  rewrite T0, T2. cbn [andb].
  destruct (get_value_spec md es0 name_key Hh) as (r1 & -> & H1). cbn [obind].
  destruct (get_value_spec md es0 metadata_key Hh) as (r2 & -> & H2). cbn [obind].
  eexists. split; [reflexivity|]. split; reflexivity.
Qed.

(** ** Numerals *)
Lemma digits_all t : Forall (fun c => 48 <= c <= 57)%N t -> forall acc,
  digits t acc = (fold_left (fun v c => v * 10 + (Z.of_N c - 48)) t acc, []).
Proof.
  induction 1 as [|c t Hc Ht IH]; intros acc; cbn [digits fold_left]; [reflexivity|].
  unfold is_digit. replace ((48 <=? c)%N && (c <=? 57)%N) with true by lia. apply IH.
Qed.
Lemma numeral_nonneg t : Forall (fun c => 48 <= c <= 57)%N t -> forall acc, 0 <= acc ->
  acc <= fold_left (fun v c => v * 10 + (Z.of_N c - 48)) t acc.
Proof.
  induction 1 as [|c t Hc Ht IH]; intros acc Ha; cbn [fold_left]; [lia|].
  specialize (IH (acc * 10 + (Z.of_N c - 48)) ltac:(lia)). lia.
Qed.
Lemma strtol_numeral t : numeral t -> numeral_value t < 2147483648 -> strtol t = Some (numeral_value t, []).
Proof.
  intros (Hn & Hd & _) Hv. destruct t as [|c t]; [contradiction|]. inversion Hd as [|? ? Hc Ht]; subst.
  assert (S : skip_spaces (c :: t) = c :: t).
  { cbn [skip_spaces]. assert (is_space c = false) as ->; [|reflexivity]. unfold is_space, one_of. cbn [existsb]. lia. }
  unfold strtol. rewrite S.
  assert (is_char c $"-" = false) as ->. { change ((c =? 45)%N = false). lia. }
  assert (is_char c $"+" = false) as ->. { change ((c =? 43)%N = false). lia. }
  assert (D : is_digit (char_at (c :: t) 0) = true). { unfold char_at, is_digit. cbn [nth]. lia. }
  rewrite D, (digits_all (c :: t) Hd 0). fold (numeral_value (c :: t)). f_equal. f_equal. unfold long_max. lia.
Qed.
Lemma numeral_small t n : numeral t -> numeral_value t = Z.of_N n - 48 -> (49 <= n <= 57)%N -> t = [n].
Proof.
  intros (Hn & Hd & Hz) Hv Hr. destruct t as [|c [|c2 t]]; [contradiction| |].
  - unfold numeral_value in Hv. cbn [fold_left] in Hv. f_equal. lia.
  - exfalso. cbn [hd length] in Hz. inversion Hd as [|? ? Hc Ht]; subst. inversion Ht as [|? ? Hc2 Ht2]; subst.
    assert (c <> 48)%N by (intros E; specialize (Hz E); discriminate).
    unfold numeral_value in Hv. cbn [fold_left] in Hv.
    pose proof (numeral_nonneg t Ht2 ((0 * 10 + (Z.of_N c - 48)) * 10 + (Z.of_N c2 - 48)) ltac:(lia)). lia.
Qed.

(** The format of a fixed-size list. *)
Lemma parse_size_format t n : numeral t -> numeral_value t < 2147483648 ->
  parse_format ($"+w:" ++ t) n = Some (Parsed TFixedSizeList TFixedSizeList (numeral_value t) []).
Proof.
  intros Ht Hv. pose proof (strtol_numeral t Ht Hv) as S. destruct Ht as (Hn & Hd & _).
  assert (E : forall k, skipn 3 ($"+w:" ++ k) = k) by reflexivity.
  assert (C0 : char_at ($"+w:" ++ t) 0 = 43%N) by reflexivity.
  assert (C1 : char_at ($"+w:" ++ t) 1 = 119%N) by reflexivity.
  assert (C2 : char_at ($"+w:" ++ t) 2 = 58%N) by reflexivity.
  assert (C3 : (char_at ($"+w:" ++ t) 3 =? 0)%N = false).
  { destruct t as [|c t]; [contradiction|]. inversion Hd; subst. change ((c =? 0)%N = false). lia. }
  unfold parse_format. rewrite C0, C1, C2, C3, E, S. cbv zeta.
  repeat match goal with
  | |- context [one_of ?c $?s] => let b := eval vm_compute in (one_of c $s) in change (one_of c $s) with b; cbv iota
  | |- context [is_char ?c $?s] => let b := eval vm_compute in (is_char c $s) in change (is_char c $s) with b; cbv iota
  end.
  cbn [negb andb]. cbv iota. rewrite to_int32_short; [reflexivity|].
  split; [|exact Hv]. apply (numeral_nonneg t Hd 0). lia.
Qed.
