(** * Finishing a builder *)
From Verif Require Import Base BaseFacts TypesModel TypesProofs GeomSpec BufferModel BufferFacts CoordsModel BitmapModel BitmapSpec BitmapProofs
  ArrowModel ArrayViewModel NativeSpec NativeProofs BuilderModel BuilderSpec BuilderRun BuilderFacts.
Local Open Scope Z_scope.

(** ** Types *)

(** What never changes in a builder. *)
Definition same_cfg (b0 b : builder) : Prop :=
  bd_type b = bd_type b0 /\ bd_geom b = bd_geom b0 /\ bd_dims b = bd_dims b0 /\ bd_ctype b = bd_ctype b0 /\
  bd_n_offsets b = bd_n_offsets b0 /\ bd_n_values b = bd_n_values b0 /\ bd_stride b = bd_stride b0 /\
  bd_n_buffers b = bd_n_buffers b0 /\ bd_schema b = bd_schema b0.
Definition cfg (code : Z) (b : builder) : Prop := exists b0, builder_init code = Ok b0 /\ same_cfg b0 b.

Lemma cfg_with code b bufs next : cfg code b -> cfg code (with_bufs b bufs next).
Proof. intros H. exact H. Qed.
Lemma cfg_with_view code b v s c : cfg code b -> cfg code (with_coord_view b v s c).
Proof. intros H. exact H. Qed.

Ltac type_cases t Hok Hin :=
  destruct t as [[] [] []|[]]; cbn [kind_ok] in Hok; try (specialize (Hok eq_refl); discriminate Hok); cbn [type_codes In] in Hin;
  repeat (destruct Hin as [Hin|Hin]); try contradiction; subst.

Lemma init_ok t code : kind_ok t -> In code (type_codes t) -> exists b, builder_init code = Ok b.
Proof. intros Hok Hin. type_cases t Hok Hin; vm_compute; eexists; reflexivity. Qed.

Lemma cfg_count t code b : kind_ok t -> In code (type_codes t) -> cfg code b -> bd_n_buffers b = Z.of_nat (buffer_count t).
Proof.
  intros Hok Hin (b0 & E & C). destruct C as (_ & _ & _ & _ & _ & _ & _ & -> & _).
  type_cases t Hok Hin; vm_compute in E; injection E as <-; reflexivity.
Qed.

(** ** The tree of arrays *)
Definition f_float (w : wbuf) : farray := FArray SDouble (length_by_values (w_size w)) [flush_buffer 0 None; flush_buffer 1 (Some w)] [].
Definition f_coord (l : layout) (d : dim) (v : option bytes) (cols : list wbuf) : farray :=
  match l with
  | Separate => FArray SStruct (Z.quot (length_by_values (w_size (hd wbuf_init cols))) 1) [v] (map f_float cols)
  | Interleaved => FArray (SFixed (Z.of_nat (ndim d)))
                     (Z.quot (length_by_values (w_size (hd wbuf_init cols))) (Z.of_nat (ndim d))) [v] (map f_float cols)
  end.
Fixpoint f_list (offsets : list wbuf) (coords : option bytes -> farray) (v : option bytes) : farray :=
  match offsets with
  | [] => coords v
  | o :: r => FArray SList (length_by_offsets 4 (w_size o)) [v; flush_buffer 1 (Some o)] [f_list r coords (flush_buffer 0 None)]
  end.
Definition f_array (t : array_kind) (v : option bytes) (bufs : list wbuf) : farray :=
  match t with
  | ANative k l d => f_list (firstn (n_lists k) bufs) (fun v => f_coord l d v (skipn (n_lists k) bufs)) v
  | ABinary large =>
      FArray (SBinary (offset_size large)) (length_by_offsets (offset_size large) (w_size (nth 0 bufs wbuf_init)))
        [v; flush_buffer 1 (Some (nth 0 bufs wbuf_init)); flush_buffer 2 (Some (nth 1 bufs wbuf_init))] []
  end.

Lemma finish_tree t code b c0 bufs : kind_ok t -> In code (type_codes t) -> cfg code b -> length (c0 :: bufs) = buffer_count t ->
  let is := seq 0 (Z.to_nat (bd_n_buffers b)) in
  exists a, (do a <- set_lengths b is (c0 :: bufs) (barray_init (bd_schema b)); set_container_length b a) = Ok a /\
    flush (buffer_slot a is (c0 :: bufs)) [] a = f_array t (flush_buffer 0 (Some (bf c0))) (map bf bufs).
Proof.
  intros Hok Hin (b0 & E & C) HL.
  destruct C as (C1 & C2 & C3 & C4 & C5 & C6 & C7 & C8 & C9).
  type_cases t Hok Hin; vm_compute in E; injection E as <-; cbn [bd_type bd_geom bd_dims bd_ctype bd_n_offsets bd_n_values bd_stride bd_n_buffers bd_schema] in *;
  cbn in HL; repeat (destruct bufs as [|? bufs]; [discriminate HL|]); (destruct bufs; [|discriminate HL]);
  destruct b as [ty ge di ct no nv st nb sc bs nx va sz cp]; cbn [bd_type bd_geom bd_dims bd_ctype bd_n_offsets bd_n_values bd_stride bd_n_buffers bd_schema] in *; subst;
  (eexists; split; [cbv -[length_by_offsets length_by_values Z.quot w_size bf]; reflexivity|
     cbv -[length_by_offsets length_by_values Z.quot w_size bf flush_buffer]; reflexivity]).
Qed.

(** ** Contents of the buffers *)
Definition sized (w : wbuf) : Prop := 0 <= w_size w <= w_cap w.
Definition data (w : wbuf) : bytes := firstn (Z.to_nat (w_size w)) (w_mem w).

Lemma data_length w : sized w -> blen (data w) = w_size w.
Proof. intros (H1 & H2). unfold blen, data, w_cap in *. rewrite firstn_length. lia. Qed.

Lemma flush_data j w : j <> 0 -> sized w -> flush_buffer j (Some w) = Some (data w).
Proof.
  intros Hj (H1 & H2). unfold flush_buffer, w_null, data. destruct (w_mem w) eqn:E; [|reflexivity].
  rewrite firstn_nil. destruct (Z.eqb_spec j 0); [contradiction|reflexivity].
Qed.

Lemma flush_none : flush_buffer 0 None = None.
Proof. reflexivity. Qed.

Lemma length_offsets k w : sized w -> length_by_offsets k (w_size w) = list_length k (data w).
Proof. intros H. unfold length_by_offsets, list_length. rewrite data_length by exact H. reflexivity. Qed.

Lemma length_values w : sized w -> length_by_values (w_size w) = blen (data w) / 8.
Proof. intros H. unfold length_by_values. rewrite data_length by exact H. destruct (Z.eqb_spec (w_size w) 0) as [->|]; reflexivity. Qed.

(** ** The array *)
Lemma to_arrow_float w : sized w -> to_arrow (f_float w) = float_array (data w).
Proof. intros H. cbn [to_arrow f_float map]. rewrite flush_none, flush_data, length_values by (assumption || discriminate). reflexivity. Qed.

Lemma map_float cols : Forall sized cols -> map to_arrow (map f_float cols) = map float_array (map data cols).
Proof. induction 1; [reflexivity|]. cbn [map]. rewrite to_arrow_float by assumption. f_equal. assumption. Qed.

Lemma hd_sized cols : Forall sized cols -> sized (hd wbuf_init cols).
Proof. intros H. destruct H; [cbv; split; discriminate|assumption]. Qed.
Lemma hd_data cols : data (hd wbuf_init cols) = hd [] (map data cols).
Proof. destruct cols; reflexivity. Qed.

Lemma coord_length_nonneg (b : bytes) : 0 <= blen b / 8.
Proof. apply Z.div_pos; [apply Zle_0_nat|lia]. Qed.

Lemma to_arrow_coord l d v cols : Forall sized cols -> to_arrow (f_coord l d v cols) = coord_array l d v (map data cols).
Proof.
  intros H. unfold f_coord, coord_array. rewrite length_values by (apply hd_sized; exact H). rewrite hd_data.
  destruct l; cbn [to_arrow]; rewrite map_float by exact H.
  - rewrite Z.quot_1_r. reflexivity.
  - rewrite Z.quot_div_nonneg by (apply coord_length_nonneg || (destruct d; cbn; lia)). reflexivity.
Qed.

Lemma to_arrow_list offs coords acoords : Forall sized offs -> (forall v, to_arrow (coords v) = acoords v) ->
  forall v, to_arrow (f_list offs coords v) = list_array (map data offs) acoords v.
Proof.
  intros H Hc. induction H as [|o offs Ho H IH]; intros v; [apply Hc|].
  cbn [f_list map list_array to_arrow]. rewrite flush_data, length_offsets, IH by (assumption || discriminate). reflexivity.
Qed.

Lemma firstn_map_data n bufs : map data (firstn n bufs) = firstn n (map data bufs).
Proof. symmetry. apply firstn_map. Qed.
Lemma skipn_map_data n bufs : map data (skipn n bufs) = skipn n (map data bufs).
Proof. symmetry. apply skipn_map. Qed.
Lemma Forall_firstn {A} (P : A -> Prop) n l : Forall P l -> Forall P (firstn n l).
Proof. intros H. rewrite <- (firstn_skipn n l), Forall_app in H. tauto. Qed.
Lemma Forall_skipn {A} (P : A -> Prop) n l : Forall P l -> Forall P (skipn n l).
Proof. intros H. rewrite <- (firstn_skipn n l), Forall_app in H. tauto. Qed.

Lemma to_arrow_array t v bufs : Forall sized bufs -> length (map data bufs) = (buffer_count t - 1)%nat ->
  with_null_count (to_arrow (f_array t v bufs)) (match v with Some _ => -1 | None => 0 end) = assembled t v (map data bufs).
Proof.
  intros H HL. unfold assembled. destruct t as [k l d|large]; cbn [f_array].
  - rewrite (to_arrow_list _ _ (fun v => coord_array l d v (map data (skipn (n_lists k) bufs)))).
    + rewrite firstn_map_data, skipn_map_data. reflexivity.
    + apply Forall_firstn. exact H.
    + intros v'. apply to_arrow_coord. apply Forall_skipn. exact H.
  - destruct bufs as [|o [|x [|]]]; try discriminate HL. inversion H as [|? ? H1 H2]; subst. inversion H2; subst.
    cbn [nth map to_arrow]. rewrite !flush_data, length_offsets by (assumption || discriminate). reflexivity.
Qed.

(** ** Validation *)
Definition decides (P : Prop) (o : outcome unit) : Prop := (P /\ o = Ok tt) \/ (~ P /\ o = Err EINVAL).

Lemma decides_fails (P : Prop) c : (c = true <-> ~ P) -> (c = false <-> P) -> decides P (fails c).
Proof. intros H1 H2. unfold fails. destruct c; [right|left]; split; tauto. Qed.
Lemma decides_ltb a b : decides (b <= a) (fails (a <? b)).
Proof. apply decides_fails; destruct (Z.ltb_spec a b); split; intros; try lia; discriminate. Qed.
Lemma decides_false : decides True (fails false).
Proof. left. auto. Qed.
Lemma decides_ok : decides True (Ok tt).
Proof. left. auto. Qed.
Lemma decides_and (P Q : Prop) o k : decides P o -> (P -> decides Q k) -> decides (P /\ Q) (check o; k).
Proof. intros [(HP & ->)|(HP & ->)] HQ; cbn [obind]; [|right; tauto]. destruct (HQ HP) as [(H & ->)|(H & ->)]; [left|right]; tauto. Qed.
Lemma decides_iff (P Q : Prop) o : (P <-> Q) -> decides P o -> decides Q o.
Proof. intros H [(HP & E)|(HP & E)]; [left|right]; tauto. Qed.

Lemma decides_bool c P : (c = false <-> P) -> decides P (fails c).
Proof. intros H. destruct c; [right|left]; (split; [|reflexivity]); [intros H'; rewrite <- H in H'; discriminate|rewrite <- H; reflexivity]. Qed.

Definition bitmap_fits (v : option bytes) (n : Z) : Prop := forall b, v = Some b -> b = [] \/ n <= 8 * blen b.

Lemma decides_bitmap v n : 0 <= n -> decides (bitmap_fits v n) (fails (negb (buf_size v =? 0) && (buf_size v <? bytes_for_bits n))).
Proof.
  intros Hn. assert (forall s, (s <? bytes_for_bits n) = false <-> n <= 8 * s) as Hb.
  { intros s. rewrite bytes_for_bits_spec by exact Hn. pose proof (bytes_needed_bound n Hn). destruct (Z.ltb_spec s (bytes_needed n));
      split; intros; try discriminate; try reflexivity; lia. }
  apply decides_bool. destruct v as [b|]; cbn [buf_size].
  - fold (blen b). destruct (Z.eqb_spec (blen b) 0) as [E|E]; cbn [negb andb].
    + split; [|reflexivity]. intros _ b' Eb. injection Eb as <-. left. unfold blen in E. destruct b; [reflexivity|cbn in E; lia].
    + rewrite Hb. split.
      * intros H b' Eb. injection Eb as <-. auto.
      * intros H. destruct (H b eq_refl) as [->|H']; [|exact H']. exfalso. apply E. reflexivity.
  - cbn. split; [discriminate|reflexivity].
Qed.

Lemma validate_float_minimal w : sized w -> validate_minimal (f_float w) = Ok tt.
Proof.
  intros H. cbn [validate_minimal f_float nth_buf nth]. rewrite flush_none, flush_data, length_values by (assumption || discriminate).
  cbn [buf_size]. change (Z.of_nat (length (data w))) with (blen (data w)).
  pose proof (coord_length_nonneg (data w)). pose proof (Z.mul_div_le (blen (data w)) 8 ltac:(lia)).
  destruct (Z.ltb_spec (blen (data w) / 8) 0); [lia|]. destruct (Z.ltb_spec (blen (data w)) (8 * (blen (data w) / 8))); [lia|]. reflexivity.
Qed.
Lemma validate_float w : sized w -> validate_default (f_float w) = Ok tt.
Proof. intros H. unfold f_float. cbn [validate_default]. change (FArray _ _ _ _) with (f_float w). rewrite validate_float_minimal by exact H. reflexivity. Qed.

Lemma all_floats_minimal cols : Forall sized cols ->
  (fix go (cs : list farray) := match cs with [] => Ok tt | ch :: r => check validate_minimal ch; go r end) (map f_float cols) = Ok tt.
Proof. induction 1 as [|w cols Hw H IH]; [reflexivity|]. cbn [map]. rewrite validate_float_minimal by exact Hw. exact IH. Qed.
Lemma all_floats cols : Forall sized cols ->
  (fix go (cs : list farray) := match cs with [] => Ok tt | ch :: r => check validate_default ch; go r end) (map f_float cols) = Ok tt.
Proof. induction 1 as [|w cols Hw H IH]; [reflexivity|]. cbn [map]. rewrite validate_float by exact Hw. exact IH. Qed.

Lemma shorter_floats n cols : Forall sized cols ->
  (existsb (fun ch => fa_length ch <? n) (map f_float cols) = false <-> Forall (fun c => n <= blen c / 8) (map data cols)).
Proof.
  induction 1 as [|w cols Hw H IH]; cbn [map existsb]; [split; [constructor|reflexivity]|].
  rewrite Bool.orb_false_iff, IH. cbn [fa_length f_float]. rewrite length_values by exact Hw.
  split.
  - intros (H1 & H2). constructor; [|exact H2]. destruct (Z.ltb_spec (blen (data w) / 8) n); [discriminate|assumption].
  - intros H'. inversion H' as [|? ? H1 H2]; subst. split; [|exact H2]. destruct (Z.ltb_spec (blen (data w) / 8) n); [lia|reflexivity].
Qed.


(** The array of coordinates: the children are long enough for it. *)
Definition coords_fit (l : layout) (cols : list bytes) : Prop :=
  match l with Separate => Forall (fun c => blen (hd [] cols) / 8 <= blen c / 8) cols | Interleaved => True end.
Definition coord_length (l : layout) (d : dim) (cols : list bytes) : Z := aa_length (coord_array l d None cols).

Lemma coord_length_pos l d cols : 0 <= coord_length l d cols.
Proof.
  unfold coord_length, coord_array. destruct l; cbn [aa_length]; [apply coord_length_nonneg|].
  apply Z.div_pos; [apply coord_length_nonneg|]. destruct d; cbn; lia.
Qed.

Lemma f_coord_length l d v cols : Forall sized cols -> fa_length (f_coord l d v cols) = coord_length l d (map data cols).
Proof.
  intros H. unfold f_coord, coord_length, coord_array. rewrite length_values by (apply hd_sized; exact H). rewrite hd_data.
  destruct l; cbn [fa_length aa_length]; [apply Z.quot_1_r|]. apply Z.quot_div_nonneg; [apply coord_length_nonneg|destruct d; cbn; lia].
Qed.

Lemma validate_coord_minimal l d v cols : Forall sized cols -> (l = Interleaved -> length cols = 1%nat) ->
  decides (bitmap_fits v (coord_length l d (map data cols)) /\ coords_fit l (map data cols)) (validate_minimal (f_coord l d v cols)).
Proof.
  intros H HL. pose proof (f_coord_length l d v cols H) as Hlen. pose proof (coord_length_pos l d (map data cols)) as Hpos.
  set (n := coord_length l d (map data cols)) in *.
  assert (f_coord l d v cols = FArray (match l with Separate => SStruct | Interleaved => SFixed (Z.of_nat (ndim d)) end) n [v] (map f_float cols)) as ->.
  { unfold f_coord in *. destruct l; cbn [fa_length] in Hlen; rewrite Hlen; reflexivity. }
  cbn [validate_minimal nth_buf nth].
  eapply decides_iff; [|apply decides_and; [apply decides_ltb|intros _; apply decides_and; [apply decides_bitmap; exact Hpos|intros _]]].
  2:{ apply decides_and with (P := True); [destruct l; apply decides_false|intros _].
      apply decides_and with (P := True); [|intros _; apply decides_and with (P := coords_fit l (map data cols));
        [|intros _; rewrite all_floats_minimal by exact H; apply decides_ok]].
      - destruct l; [apply decides_false|]. rewrite map_length, HL by reflexivity. apply decides_false.
      - destruct l.
        + apply decides_bool. rewrite shorter_floats by exact H. reflexivity.
        + destruct cols as [|c [|]]; try discriminate (HL eq_refl). inversion H; subst.
          cbn [map existsb fa_length f_float]. rewrite length_values by assumption.
          apply decides_bool. split; [constructor|]. intros _. unfold n, coord_length, coord_array. cbn [aa_length map hd].
          pose proof (Z.mul_div_le (blen (data c) / 8) (Z.of_nat (ndim d)) ltac:(destruct d; cbn; lia)).
          destruct (Z.ltb_spec (blen (data c) / 8) (blen (data c) / 8 / Z.of_nat (ndim d) * Z.of_nat (ndim d))); [lia|reflexivity]. }
  cbn beta. tauto.
Qed.

Lemma validate_coord l d v cols : Forall sized cols -> (l = Interleaved -> length cols = 1%nat) ->
  decides (bitmap_fits v (coord_length l d (map data cols)) /\ coords_fit l (map data cols)) (validate_default (f_coord l d v cols)).
Proof.
  intros H HL. pose proof (validate_coord_minimal l d v cols H HL) as Hm.
  eapply decides_iff with (P := (bitmap_fits v (coord_length l d (map data cols)) /\ coords_fit l (map data cols)) /\ (True /\ True)); [tauto|].
  pose proof (f_coord_length l d v cols H) as Hlen. pose proof (shorter_floats (fa_length (f_coord l d v cols)) cols H) as Hs.
  unfold f_coord in *. destruct l; cbn [validate_default]; (apply decides_and; [exact Hm|intros (_ & Hf)]).
  - cbn [coords_fit fa_length] in *. apply decides_and; [|intros _; rewrite all_floats by exact H; apply decides_ok].
    apply decides_bool. rewrite Hs, Hlen. unfold coord_length. cbn [coord_array aa_length]. tauto.
  - apply decides_and; [apply decides_ok|intros _; rewrite all_floats by exact H; apply decides_ok].
Qed.

(** Lists *)
Lemma load_offset_at k b i : load_offset k (Some b) i = match offset_at k b i with Some n => Ok n | None => UB end.
Proof. unfold load_offset, offset_at. destruct (slice b (k * i) (Z.to_nat k)); reflexivity. Qed.

Definition offsets_sized (k : Z) (b : bytes) : Prop := b = [] \/ k <= blen b.

Lemma list_length_pos k b : 0 < k -> (0 <= list_length k b <-> offsets_sized k b).
Proof.
  intros Hk. unfold list_length, offsets_sized. destruct (Z.eqb_spec (blen b) 0) as [E|E].
  - split; [|lia]. intros _. left. unfold blen in E. destruct b; [reflexivity|cbn in E; lia].
  - pose proof (Z.mul_div_le (blen b) k Hk). pose proof (Z.mul_succ_div_gt (blen b) k Hk). assert (0 <= blen b) by apply Zle_0_nat.
    split.
    + intros H'. right. nia.
    + intros [->|H']; [exfalso; apply E; reflexivity|]. assert (1 <= blen b / k) by (apply Z.div_le_lower_bound; lia). lia.
Qed.

Lemma offset_at_some k b i : 0 < k -> 0 <= i -> k * (i + 1) <= blen b -> exists n, offset_at k b i = Some n.
Proof.
  intros Hk Hi Hb. unfold offset_at. unfold blen in Hb.
  destruct (proj2 (slice_some_iff b (k * i) (Z.to_nat k)) ltac:(nia)) as (bs & ->). eexists; reflexivity.
Qed.

Lemma validate_offsets_ok k b limit : 0 < k -> offsets_sized k b -> decides (offsets_fit k b limit) (validate_offsets k (list_length k b) limit (Some b)).
Proof.
  intros Hk Hs. unfold validate_offsets. cbn [buf_size]. fold (blen b).
  destruct (Z.eqb_spec (blen b) 0) as [E|E].
  - eapply decides_iff; [|apply decides_ok]. split; [|tauto]. intros _. left. unfold blen in E. destruct b; [reflexivity|cbn in E; lia].
  - pose proof (proj2 (list_length_pos k b Hk) Hs) as Hn.
    assert (list_length k b = blen b / k - 1) as Hl by (unfold list_length; destruct (Z.eqb_spec (blen b) 0); [contradiction|reflexivity]).
    pose proof (Z.mul_div_le (blen b) k Hk).
    destruct (offset_at_some k b 0 Hk ltac:(lia) ltac:(nia)) as (first & E1). destruct (offset_at_some k b (list_length k b) Hk Hn ltac:(nia)) as (last & E2).
    rewrite !load_offset_at, E1, E2. cbn [obind].
    eapply decides_iff; [|apply decides_and; [apply (decides_ltb first 0)|intros _; apply decides_and; [apply (decides_ltb last 0)|intros _]]].
    2:{ apply (decides_ltb limit last). }
    unfold offsets_fit. rewrite E1, E2. split.
    + intros (H1 & H2 & H3). right. exists first, last. repeat split; assumption.
    + intros [->|(f & la & F1 & F2 & F3 & F4)]; [exfalso; apply E; reflexivity|]. injection F1 as <-. injection F2 as <-. lia.
Qed.

Lemma offsets_size_ok k b : 0 < k -> 0 <= list_length k b -> (blen b <? (if list_length k b =? 0 then 0 else k * (list_length k b + 1))) = false.
Proof.
  intros Hk Hn. assert (0 <= blen b) by apply Zle_0_nat. apply Z.ltb_ge. destruct (Z.eqb_spec (list_length k b) 0) as [E|E]; [lia|].
  unfold list_length in *. destruct (Z.eqb_spec (blen b) 0); [contradiction|]. pose proof (Z.mul_div_le (blen b) k Hk). nia.
Qed.

Lemma validate_list o v ch P Pm : sized o -> decides Pm (validate_minimal ch) -> decides P (validate_default ch) -> (P -> Pm) ->
  let a := FArray SList (length_by_offsets 4 (w_size o)) [v; flush_buffer 1 (Some o)] [ch] in
  decides (offsets_sized 4 (data o) /\ bitmap_fits v (list_length 4 (data o)) /\ Pm) (validate_minimal a) /\
  decides (bitmap_fits v (list_length 4 (data o)) /\ offsets_fit 4 (data o) (fa_length ch) /\ P) (validate_default a).
Proof.
  intros Ho Hm Hd HP a. subst a. rewrite flush_data, length_offsets by (assumption || discriminate).
  set (n := list_length 4 (data o)).
  assert (decides (offsets_sized 4 (data o) /\ bitmap_fits v n /\ Pm) (validate_minimal (FArray SList n [v; Some (data o)] [ch]))) as Hmin.
  { cbn [validate_minimal nth_buf nth buf_size length]. fold (blen (data o)).
    eapply decides_iff; [|apply decides_and; [apply (decides_ltb n 0)|intros Hn]].
    2:{ apply decides_and; [apply decides_bitmap; exact Hn|intros _].
        unfold n. rewrite offsets_size_ok by (lia || exact Hn). apply decides_and with (P := True); [apply decides_false|intros _].
        apply decides_and with (P := True); [apply decides_false|intros _]. apply decides_and with (P := True); [apply decides_false|intros _].
        apply decides_and; [exact Hm|intros _; apply decides_ok]. }
    unfold n. rewrite list_length_pos by lia. tauto. }
  split; [exact Hmin|]. cbn [validate_default nth_buf nth].
  eapply decides_iff; [|apply decides_and; [exact Hmin|intros (Hs & _)]].
  2:{ apply decides_and; [apply validate_offsets_ok; [lia|exact Hs]|intros _]. apply decides_and; [exact Hd|intros _; apply decides_ok]. }
  split; [tauto|]. intros (H1 & H2 & H3). repeat split; try tauto.
  destruct H2 as [H2|(f & la & F1 & _)]; [left; exact H2|right]. unfold offset_at in F1. destruct (slice (data o) (4 * 0) _) eqn:Es; [|discriminate].
  assert (exists x, slice (data o) (4 * 0) (Z.to_nat 4) = Some x) as Hx by eauto. apply slice_some_iff in Hx. unfold blen. lia.
Qed.

Fixpoint lists_minimal (offs : list bytes) (n : Z) (Q : Prop) (v : option bytes) : Prop :=
  match offs with
  | [] => bitmap_fits v n /\ Q
  | o :: r => offsets_sized 4 o /\ bitmap_fits v (list_length 4 o) /\ lists_minimal r n Q None
  end.
Definition outer_length (offs : list bytes) (n : Z) : Z := match offs with [] => n | o :: _ => list_length 4 o end.
Fixpoint lists_valid (offs : list bytes) (n : Z) (Q : Prop) (v : option bytes) : Prop :=
  match offs with
  | [] => bitmap_fits v n /\ Q
  | o :: r => bitmap_fits v (list_length 4 o) /\ offsets_fit 4 o (outer_length r n) /\ lists_valid r n Q None
  end.

Lemma fit_sized b limit : offsets_fit 4 b limit -> offsets_sized 4 b.
Proof.
  intros [H|(f & la & F1 & _)]; [left; exact H|right]. unfold offset_at in F1. destruct (slice b (4 * 0) _) eqn:Es; [|discriminate].
  assert (exists x, slice b (4 * 0) (Z.to_nat 4) = Some x) as Hx by eauto. apply slice_some_iff in Hx. unfold blen. lia.
Qed.

Lemma lists_valid_minimal offs n Q : forall v, lists_valid offs n Q v -> lists_minimal offs n Q v.
Proof.
  induction offs as [|o offs IH]; intros v H; [exact H|]. cbn in *. destruct H as (H1 & H2 & H3).
  split; [eapply fit_sized; eauto|]. auto.
Qed.

Lemma f_list_length offs coords n : Forall sized offs -> (forall v, fa_length (coords v) = n) -> forall v,
  fa_length (f_list offs coords v) = outer_length (map data offs) n.
Proof. intros H Hn v. destruct H as [|o offs Ho H]; [apply Hn|]. cbn [f_list fa_length map outer_length]. apply length_offsets. exact Ho. Qed.

Lemma validate_lists offs coords n Q : Forall sized offs -> (forall v, fa_length (coords v) = n) ->
  (forall v, decides (bitmap_fits v n /\ Q) (validate_minimal (coords v))) -> (forall v, decides (bitmap_fits v n /\ Q) (validate_default (coords v))) ->
  forall v, decides (lists_minimal (map data offs) n Q v) (validate_minimal (f_list offs coords v)) /\
            decides (lists_valid (map data offs) n Q v) (validate_default (f_list offs coords v)).
Proof.
  intros H Hn Hm Hd. induction H as [|o offs Ho H IH]; intros v; [split; [apply Hm|apply Hd]|].
  cbn [map lists_minimal lists_valid f_list]. destruct (IH None) as (I1 & I2). rewrite flush_none.
  rewrite <- (f_list_length offs coords n H Hn None).
  apply (validate_list o v (f_list offs coords None) _ _ Ho I1 I2). apply lists_valid_minimal.
Qed.

Lemma bitmap_fits_none n : bitmap_fits None n.
Proof. intros b E. discriminate. Qed.

Lemma lists_valid_iff offs n Q : forall v, lists_valid offs n Q v <-> bitmap_fits v (outer_length offs n) /\ lists_fit offs n /\ Q.
Proof.
  induction offs as [|o offs IH]; intros v; cbn [lists_valid outer_length lists_fit]; [tauto|].
  rewrite IH. pose proof (bitmap_fits_none (outer_length offs n)). unfold outer_length. tauto.
Qed.

Lemma list_array_length offs coords v n : (forall v, aa_length (coords v) = n) -> aa_length (list_array offs coords v) = outer_length offs n.
Proof. intros H. destruct offs; [apply H|reflexivity]. Qed.

Lemma aa_length_null c a : aa_length (set_null_count c a) = aa_length a.
Proof. destruct a. reflexivity. Qed.

Lemma coord_array_length l d v cols : aa_length (coord_array l d v cols) = coord_length l d cols.
Proof. unfold coord_length, coord_array. destruct l; reflexivity. Qed.

Lemma validate_array t v bufs : kind_ok t -> Forall sized bufs -> length bufs = (buffer_count t - 1)%nat ->
  decides (fits t v (map data bufs)) (validate_default (f_array t v bufs)).
Proof.
  intros Hok H HL. unfold fits, assembled. rewrite aa_length_null. destruct t as [k l d|large]; cbn [f_array].
  - set (cols := skipn (n_lists k) bufs). set (offs := firstn (n_lists k) bufs).
    assert (Forall sized cols) as Hc by (apply Forall_skipn; exact H). assert (Forall sized offs) as Ho by (apply Forall_firstn; exact H).
    assert (l = Interleaved -> length cols = 1%nat) as Hl.
    { intros ->. unfold cols. rewrite skipn_length, HL. cbn [buffer_count n_columns]. destruct k; cbn [n_lists n_columns]; try lia.
      cbn in Hok. discriminate (Hok eq_refl). }
    set (Q := coords_fit l (map data cols)). set (n := coord_length l d (map data cols)).
    destruct (validate_lists offs (fun v => f_coord l d v cols) n Q Ho
      (fun v => f_coord_length l d v cols Hc) (fun v => validate_coord_minimal l d v cols Hc Hl) (fun v => validate_coord l d v cols Hc Hl) v) as (_ & Hd).
    eapply decides_iff; [|exact Hd]. rewrite lists_valid_iff.
    rewrite (list_array_length _ _ v n).
    2:{ intros. rewrite coord_array_length. unfold n, cols. rewrite skipn_map_data. reflexivity. }
    unfold offs. rewrite firstn_map_data, <- skipn_map_data. fold cols. fold n.
    assert (Q <-> Forall (fun c => blen (hd [] (map data cols)) / 8 <= blen c / 8) (map data cols)) as HQ.
    { unfold Q, coords_fit. destruct l; [reflexivity|]. destruct cols as [|c [|]]; try discriminate (Hl eq_refl).
      split; [|constructor]. intros _. cbn. constructor; [lia|constructor]. }
    rewrite HQ. reflexivity.
  - destruct bufs as [|o [|x [|]]]; try discriminate HL. inversion H as [|? ? H1 H2]; subst. inversion H2; subst.
    cbn [nth map aa_length]. rewrite !flush_data, length_offsets by (assumption || discriminate).
    set (k := offset_size large). assert (0 < k) as Hk by (destruct large; reflexivity).
    set (n := list_length k (data o)).
    eapply decides_iff with (P := (offsets_sized k (data o) /\ bitmap_fits v n) /\ offsets_fit k (data o) (blen (data x))).
    { split; [intros ((Ha & Hb) & Hc); split; assumption|]. intros (Hb & Hc). split; [split; [|exact Hb]|exact Hc].
      destruct Hc as [Hc|(f & la & F1 & _)]; [left; exact Hc|right]. unfold offset_at in F1. destruct (slice (data o) (k * 0) _) eqn:Es; [|discriminate].
      assert (exists y, slice (data o) (k * 0) (Z.to_nat k) = Some y) as Hx by eauto. apply slice_some_iff in Hx. unfold blen. lia. }
    cbn [validate_default validate_minimal nth_buf nth buf_size length]. fold (blen (data o)) (blen (data x)).
    apply decides_and.
    + eapply decides_iff; [|apply decides_and; [apply (decides_ltb n 0)|intros Hn]].
      2:{ apply decides_and; [apply decides_bitmap; exact Hn|intros _].
          unfold n. rewrite offsets_size_ok by (lia || exact Hn). apply decides_and with (P := True); [apply decides_false|intros _].
          apply decides_and with (P := True); [apply decides_false|intros _]. apply decides_and with (P := True); [apply decides_false|intros _]. apply decides_ok. }
      unfold n. rewrite list_length_pos by lia. tauto.
    + intros (Hs & _). eapply decides_iff; [|apply decides_and; [apply validate_offsets_ok; [exact Hk|exact Hs]|intros _; apply decides_ok]]. tauto.
Qed.

(** ** GeoArrowBuilderFinish *)
Definition synced (b : builder) : list wbuf := map bf (sync_coord_sizes b).
Definition validity_of (w : wbuf) : option bytes := flush_buffer 0 (Some w).

Definition outcome_of {A} (P : Prop) (a : A) (o : outcome A) : Prop := (P /\ o = Ok a) \/ (~ P /\ o = Err EINVAL).

Lemma renew_ok t code b : kind_ok t -> In code (type_codes t) -> cfg code b ->
  builder_renew b = Ok (with_coord_view
    (with_bufs b (map (fun i => {| bf_id := bd_next b + i; bf := wbuf_init |}) (seq 0 (buffer_count t))) (bd_next b + buffer_count t))
    (repeat null_daddr 4 ++ skipn 4 (bd_values b)) 0 0).
Proof.
  intros Hok Hin Hcfg. unfold builder_renew. rewrite (cfg_count t code b Hok Hin Hcfg), Nat2Z.id.
  assert (all_found (barray_init (bd_schema b)) (seq 0 (buffer_count t)) = true) as ->; [|reflexivity].
  destruct Hcfg as (b0 & E & C). destruct C as (_ & _ & _ & _ & _ & _ & _ & _ & ->).
  type_cases t Hok Hin; vm_compute in E; injection E as <-; reflexivity.
Qed.

Lemma finish_ok t code b c0 bufs : kind_ok t -> In code (type_codes t) -> cfg code b -> length (c0 :: bufs) = buffer_count t ->
  synced b = bf c0 :: map bf bufs -> sync_coord_sizes b = c0 :: bufs -> Forall sized (synced b) ->
  exists b', builder_renew b = Ok b' /\
    outcome_of (fits t (validity_of (bf c0)) (map data (map bf bufs)))
               (assembled t (validity_of (bf c0)) (map data (map bf bufs)), b') (builder_finish b).
Proof.
  intros Hok Hin Hcfg HL Hsy Hs Hz. rewrite Hsy in Hz. inversion Hz as [|? ? Hz0 Hz1]; subst.
  rewrite (renew_ok t code b Hok Hin Hcfg). eexists. split; [reflexivity|].
  unfold builder_finish. rewrite Hs.
  destruct (finish_tree t code b c0 bufs Hok Hin Hcfg HL) as (a & Ea & Ef).
  destruct (set_lengths b _ (c0 :: bufs) (barray_init (bd_schema b))) as [a1| | |] eqn:E1; cbn [obind] in Ea; try discriminate. cbn [obind].
  rewrite Ea. cbn [obind]. rewrite Ef.
  assert (existsb (fun c => w_cap (bf c) <? w_size (bf c)) (c0 :: bufs) = false) as ->.
  { apply Bool.not_true_is_false. intros Hx. apply existsb_exists in Hx as (c & Hc & Hx). apply Z.ltb_lt in Hx.
    assert (sized (bf c)) as (_ & ?); [|lia]. destruct Hc as [<-|Hc]; [exact Hz0|]. rewrite Forall_map, Forall_forall in Hz1. auto. }
  fold (validity_of (bf c0)). set (v := validity_of (bf c0)). cbn [length] in HL.
  destruct (validate_array t v (map bf bufs) Hok Hz1 ltac:(rewrite map_length; lia)) as [(Hf & ->)|(Hf & ->)]; cbn [obind].
  2:{ right. auto. }
  left. split; [exact Hf|]. rewrite (renew_ok t code b Hok Hin Hcfg). cbn [obind].
  rewrite <- (to_arrow_array t v (map bf bufs) Hz1 ltac:(rewrite !map_length; lia)).
  do 2 f_equal. f_equal.
  assert (exists n bufs' ch, to_arrow (f_array t v (map bf bufs)) = ArrowArray n 0 0 (v :: bufs') ch) as (n & bs' & ch & ->).
  { destruct t as [k l d|]; cbn [f_array]; [|cbn [to_arrow]; eauto].
    destruct (firstn (n_lists k) (map bf bufs)); cbn [f_list to_arrow]; [|eauto]. unfold f_coord. destruct l; cbn [to_arrow]; eauto. }
  cbn [aa_buffers]. destruct v; reflexivity.
Qed.
