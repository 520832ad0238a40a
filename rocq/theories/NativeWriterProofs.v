(** * What a native writer holds *)
From Verif Require Import Base BaseFacts TypesModel GeomSpec VisitorModel BufferModel BufferFacts CoordsModel BitmapModel BitmapSpec BitmapProofs
  ArrowModel ArrayViewModel NativeSpec NativeProofs GeomFacts NodesModel NodesSpec CopyCoordsModel CopyCoordsSpec CopyCoordsProofs
  BuilderModel BuilderSpec BuilderRun BuilderFacts BuilderCoords BuilderAppend BuilderFinish BuilderProofs
  NativeWriterModel NativeWriterSpec NativeWriterFacts NativeWriterAppend NativeWriterGeom NativeWriterArray NativeWriterFinish NativeWriterRun.
Local Open Scope Z_scope.

(** ** Validity *)

Lemma is_byte_lor a b : is_byte a -> is_byte b -> is_byte (N.lor a b).
Proof.
  unfold is_byte. intros Ha Hb. destruct (N.eq_dec (N.lor a b) 0) as [->|Hn]; [reflexivity|]. change 256%N with (2 ^ 8)%N in *.
  apply N.log2_lt_pow2; [lia|]. rewrite N.log2_lor. destruct (N.eq_dec a 0) as [->|]; destruct (N.eq_dec b 0) as [->|];
    apply N.max_lub_lt; try (apply N.log2_lt_pow2; lia); reflexivity.
Qed.
Lemma is_byte_land a b : is_byte a -> is_byte (N.land a b).
Proof.
  unfold is_byte. intros Ha. eapply N.le_lt_trans; [|exact Ha]. apply N.ldiff_le. apply N.bits_inj_0. intros i.
  rewrite N.ldiff_spec, N.land_spec. destruct (N.testbit a i); [|reflexivity]. rewrite andb_false_r. reflexivity.
Qed.
Lemma is_byte_blend mask fill b : is_byte fill -> is_byte b -> is_byte (blend mask fill b).
Proof. intros Hf Hb. unfold blend. apply is_byte_lor; apply is_byte_land; assumption. Qed.

Lemma upd_byte_wf m i f m' : wf_bytes m -> (forall b, is_byte b -> is_byte (f b)) -> upd_byte m i f = Ok m' -> wf_bytes m'.
Proof.
  unfold upd_byte. intros Hm Hf H. destruct (i <? 0); [discriminate|]. destruct (nth_error m (Z.to_nat i)) as [b|] eqn:E; [|discriminate].
  assert (m' = firstn (Z.to_nat i) m ++ [f b] ++ skipn (S (Z.to_nat i)) m) as -> by congruence.
  apply Forall_app. split; [apply Forall_firstn; exact Hm|]. apply Forall_app. split; [|apply Forall_skipn; exact Hm]. constructor; [|constructor]. apply Hf.
  unfold wf_bytes in Hm. rewrite Forall_forall in Hm. apply Hm. eapply nth_error_In. exact E.
Qed.
Lemma upd_bytes_wf m i bs m' : wf_bytes m -> wf_bytes bs -> upd_bytes m i bs = Ok m' -> wf_bytes m'.
Proof.
  unfold upd_bytes, patch. intros Hm Hb H. destruct (_ && _); [|discriminate].
  injection H as <-.
  apply Forall_app. split; [apply Forall_firstn; exact Hm|]. apply Forall_app. split; [exact Hb|]. apply Forall_skipn. exact Hm.
Qed.
Lemma bits_set_wf m i n v m' : wf_bytes m -> bits_set_to m i n v = Ok m' -> wf_bytes m'.
Proof.
  unfold bits_set_to. intros Hm. cbn zeta.
  assert (is_byte (if v then 255%N else 0%N)) as Hf by (destruct v; reflexivity).
  destruct (n =? 0); [intros H; injection H as <-; exact Hm|]. destruct (_ =? _).
  - intros H. eapply upd_byte_wf; [exact Hm| |exact H]. intros b. apply is_byte_blend. exact Hf.
  - intros H. destruct (upd_byte m _ _) as [m1| | |] eqn:E1; cbn [obind] in H; try discriminate.
    assert (wf_bytes m1) as H1. { eapply upd_byte_wf; [exact Hm| |exact E1]. intros b. apply is_byte_blend. exact Hf. }
    destruct (if 2 <? _ then _ else _) as [m2| | |] eqn:E2; cbn [obind] in H; try discriminate.
    assert (wf_bytes m2) as H2.
    { destruct (2 <? _); [|injection E2 as <-; exact H1]. eapply upd_bytes_wf; [exact H1| |exact E2]. apply Forall_forall. intros b Hb.
      apply repeat_spec in Hb. subst b. exact Hf. }
    destruct (_ =? 0); [injection H as <-; exact H2|]. eapply upd_byte_wf; [exact H2| |exact H]. intros b. apply is_byte_blend. exact Hf.
Qed.
Lemma append_unsafe_wf bm v n bm' : wf_bytes (w_mem (bm_buffer bm)) -> bitmap_append_unsafe bm v n = Ok bm' -> wf_bytes (w_mem (bm_buffer bm')).
Proof.
  unfold bitmap_append_unsafe. intros H E. destruct (bits_set_to _ _ _ _) as [m| | |] eqn:Em; cbn [obind] in E; try discriminate. injection E as <-.
  eapply bits_set_wf; eassumption.
Qed.
Lemma reserve_wf junk bm n bm' : (forall i, is_byte (junk i)) -> wf_bytes (w_mem (bm_buffer bm)) -> bitmap_reserve junk bm n = Ok bm' -> wf_bytes (w_mem (bm_buffer bm')).
Proof.
  unfold bitmap_reserve. intros Hj H E. cbn zeta in E. destruct (_ <=? _); [injection E as <-; exact H|].
  destruct (upd_byte _ _ _) as [m| | |] eqn:Em; cbn [obind] in E; try discriminate. injection E as <-. cbn [bm_buffer w_mem].
  eapply upd_byte_wf; [| |exact Em]; [|intros b _; reflexivity]. unfold wbuf_reserve. cbn zeta. destruct (_ <=? _); [exact H|]. cbn [w_mem].
  apply Forall_app. split; [exact H|]. apply Forall_map. apply Forall_forall. intros i _. apply Hj.
Qed.
Lemma append_wf junk bm v n bm' : (forall i, is_byte (junk i)) -> wf_bytes (w_mem (bm_buffer bm)) -> bitmap_append junk bm v n = Ok bm' -> wf_bytes (w_mem (bm_buffer bm')).
Proof.
  unfold bitmap_append. intros Hj H E. destruct (bitmap_reserve _ _ _) as [b| | |] eqn:Eb; cbn [obind] in E; try discriminate.
  eapply append_unsafe_wf; [|exact E]. eapply reserve_wf; eassumption.
Qed.

(** The bitmap stands for [bits]: it is absent (NULL) as long as no element was null. *)
Definition bstate (bm : bitmap) (bits : list bool) : Prop :=
  wf_bytes (w_mem (bm_buffer bm)) /\ exists bb, bitmap_ok bm bb /\ if w_null (bm_buffer bm) then bb = [] /\ Forall (eq true) bits else bb = bits.

Definition nulls (bits : list bool) : Z := Z.of_nat (length (filter negb bits)).
Lemma nulls_app a b : nulls (a ++ b) = nulls a + nulls b.
Proof. unfold nulls. rewrite filter_app, app_length. lia. Qed.

Lemma all_true_repeat bits : Forall (eq true) bits -> bits = repeat true (length bits).
Proof. induction 1 as [|b bits <- _ IH]; [reflexivity|]. cbn. f_equal. exact IH. Qed.

Lemma bstate_init : bstate bitmap_init [].
Proof. split; [constructor|]. exists []. split; [apply bitmap_init_ok|]. cbn. auto. Qed.
Lemma bstate_clear bm bits : bstate bm bits -> bstate (bitmap_clear bm) [].
Proof.
  intros (Hw & bb & H & _). split; [exact Hw|]. exists []. split; [eapply bitmap_clear_ok; exact H|]. destruct (w_null _); auto.
Qed.

Section Junk.
  Variable junk : nat -> nat -> N.
  Hypothesis junk_bytes : forall i j, is_byte (junk i j).

  Lemma append_bit_ok w valid n bits : bstate (nw_validity w) bits -> n = Z.of_nat (length bits) + 1 ->
    exists bm, append_bit junk w valid n = VRet (with_nulls w bm (nw_null_count w + nulls [valid])) 0 /\ bstate bm (bits ++ [valid]).
  Proof.
    intros (Hwf & bb & Hb & Hv) ->. unfold append_bit, has_validity.
    destruct valid.
    - change (nulls [true]) with 0. rewrite Z.add_0_r. destruct (w_null (bm_buffer (nw_validity w))) eqn:En; cbn [negb].
      + destruct Hv as (-> & Hall). exists (nw_validity w). split; [destruct w; reflexivity|]. split; [exact Hwf|]. exists []. split; [exact Hb|]. rewrite En. split; [reflexivity|].
        apply Forall_app. auto.
      + subst bb. destruct (bitmap_append_ok (junk 0%nat) (nw_validity w) bits true 1 Hb ltac:(lia)) as (bm & E & Ho & Hnn). rewrite E. cbn [on_validity].
        exists bm. split; [reflexivity|]. split; [eapply append_wf; [apply junk_bytes|exact Hwf|exact E]|]. exists (bits ++ [true]). split; [exact Ho|]. rewrite Hnn by lia. reflexivity.
    - change (nulls [false]) with 1.
      assert (exists bm1, (if negb (w_null (bm_buffer (nw_validity w))) then VRet w 0
                  else on_validity w
                         (do bm <- bitmap_reserve (junk 0%nat) (nw_validity w) (Z.of_nat (length bits) + 1);
                          bitmap_append_unsafe bm true (Z.of_nat (length bits) + 1 - 1))) = VRet (with_nulls w bm1 (nw_null_count w)) 0 /\
                bitmap_ok bm1 bits /\ wf_bytes (w_mem (bm_buffer bm1))) as (bm1 & -> & Ho1 & Hw1).
      { destruct (w_null (bm_buffer (nw_validity w))) eqn:En; cbn [negb].
        - destruct Hv as (-> & Hall).
          destruct (bitmap_reserve_ok (junk 0%nat) (nw_validity w) [] (Z.of_nat (length bits) + 1) Hb ltac:(lia)) as (bm1 & E1 & O1 & R1 & _). rewrite E1. cbn [obind].
          destruct (BitmapProofs.append_unsafe_ok (junk 0%nat) bm1 [] true (Z.of_nat (length bits) + 1 - 1) O1 ltac:(lia)) as (bm2 & E2 & O2 & _).
          { cbn [length] in *. eapply Z.le_trans; [|exact R1]. apply bytes_needed_mono. lia. }
          rewrite E2. cbn [on_validity]. exists bm2. split; [reflexivity|]. cbn [app] in O2. replace (Z.to_nat (Z.of_nat (length bits) + 1 - 1)) with (length bits) in O2 by lia.
          rewrite <- (all_true_repeat bits Hall) in O2. split; [exact O2|].
          eapply append_unsafe_wf; [|exact E2]. eapply reserve_wf; [apply junk_bytes|exact Hwf|exact E1].
        - subst bb. exists (nw_validity w). split; [destruct w; reflexivity|split; assumption]. }
      cbn [wthen]. change (0 =? 0) with true. cbn iota. cbn [nw_validity with_nulls nw_null_count].
      destruct (bitmap_append_ok (junk 0%nat) bm1 bits false 1 Ho1 ltac:(lia)) as (bm & E & Ho & Hnn). rewrite E. cbn [on_validity].
      exists bm. split; [reflexivity|]. split; [eapply append_wf; [apply junk_bytes|exact Hw1|exact E]|]. exists (bits ++ [false]). split; [exact Ho|]. rewrite Hnn by lia. reflexivity.
  Qed.

  (** ** Elements *)
  Definition is_valid {A} (e : option A) : bool := match e with Some _ => true | None => false end.

  Record holding (k : geometry_kind) (l : layout) (d : dim) (w : nwriter) (els : list (option (nest (n_lists k)))) : Prop := {
    ho_built : writing k l d w (counts (n_lists k) (map (element k d) els)) (leaves (n_lists k) (map (element k d) els));
    ho_length : nw_length w = Z.of_nat (length els);
    ho_nulls : nw_null_count w = nulls (map is_valid els);
    ho_bits : bstate (nw_validity w) (map is_valid els)
  }.

  Lemma append_empty_ok k l d w cnt cs : k <> KBox -> writing k l d w cnt cs ->
    exists w', append_empty junk w = VRet w' 0 /\
      writing k l d w' (plus cnt (counts (n_lists k) [nest_empty k d])) (cs ++ leaves (n_lists k) [nest_empty k d]) /\ frame w w'.
  Proof.
    intros Hk Hw. pose proof Hw as (Hb & Hl). destruct (cfg_init k l d _ Hk (bu_cfg _ _ _ _ _ _ Hb)) as (Hcc & Hg & _).
    assert (k <> KPoint -> exists w', append_size junk w 0 0 = VRet w' 0 /\
      writing k l d w' (plus cnt (counts (n_lists k) [nest_empty k d])) (cs ++ leaves (n_lists k) [nest_empty k d]) /\ frame w w') as Hlist.
    { intros Hp. destruct (append_size_ok junk junk_bytes k l d w cnt cs 0 0 Hw) as (w' & E & W & F).
      - destruct k; cbn; try lia; contradiction.
      - lia.
      - exists w'. split; [exact E|]. split; [|exact F]. eapply writing_ext; [exact W| |].
        + intros i Hi. unfold plus, at_level. destruct k; try contradiction; cbn in *; destruct i as [|[|[|i]]]; try reflexivity; lia.
        + destruct k; try contradiction; cbn; rewrite app_nil_r; reflexivity. }
    unfold append_empty. rewrite Hg. destruct k; try contradiction; try exact (Hlist ltac:(discriminate)).
    cbn [geometry_kind_code]. change (1 =? GT_POINT) with true. cbn iota.
    destruct (empty_coord_append junk junk_bytes l d _ (nw_builder w) cs (bd_dims (nw_builder w)) 4 Hcc (bu_good _ _ _ _ _ _ Hb) (bu_coords _ _ _ _ _ _ Hb))
      as (b' & E & G & C & _ & X & L & F).
    { right. exists d. apply Hcc. }
    rewrite E. cbn [on_builder]. eexists. split; [reflexivity|]. split; [|apply frame_builder]. split.
    - eapply built_ext; [eapply (built_coords junk junk_bytes); eassumption| |reflexivity]. intros i Hi. cbn in Hi. lia.
    - intros i Hi. cbn in Hi. lia.
  Qed.

  Lemma append_validity_ok k l d w w' els x e : holding k l d w els -> frame w w' ->
    writing k l d w' (plus (counts (n_lists k) (map (element k d) els)) (counts (n_lists k) [x])) (leaves (n_lists k) (map (element k d) els) ++ leaves (n_lists k) [x]) ->
    element k d e = x ->
    exists w'', append_validity junk w' (is_valid e) = VRet w'' 0 /\ holding k l d w'' (els ++ [e]).
  Proof.
    intros [Hb Hln Hnl Hbits] (b & last & ->) Hw <-. unfold append_validity. cbn [nw_length with_counts with_builder].
    set (w1 := with_counts _ _ _).
    destruct (append_bit_ok w1 (is_valid e) (nw_length w + 1) (map is_valid els)) as (bm & E & B).
    { exact Hbits. }
    { rewrite map_length. lia. }
    rewrite E. eexists. split; [reflexivity|]. constructor.
    - destruct Hw as (Hw1 & Hw2). split.
      + eapply built_ext; [exact Hw1| |].
        * intros i Hi. rewrite map_app. cbn [map]. rewrite counts_app. reflexivity.
        * rewrite map_app. cbn [map]. rewrite leaves_app. reflexivity.
      + intros i Hi. rewrite map_app. cbn [map]. rewrite counts_app. exact (Hw2 i Hi).
    - cbn [nw_length with_nulls w1 with_counts]. rewrite app_length. cbn [length]. lia.
    - cbn [nw_null_count with_nulls w1 with_counts with_builder]. rewrite map_app, nulls_app, Hnl. reflexivity.
    - rewrite map_app. exact B.
  Qed.

  Lemma append_null_ok k l d w els : k <> KBox -> holding k l d w els ->
    exists w', append_null junk w = VRet w' 0 /\ holding k l d w' (els ++ [None]).
  Proof.
    intros Hk H. unfold append_null. destruct (append_empty_ok k l d w _ _ Hk (ho_built _ _ _ _ _ H)) as (w1 & E1 & W1 & F1). rewrite E1.
    cbn [wthen]. change (0 =? 0) with true. cbn iota. exact (append_validity_ok k l d w w1 els _ None H F1 W1 eq_refl).
  Qed.

  Lemma count_ok d m nodes g : item_ok d m nodes g -> num_coords nodes = N.of_nat (length (geom_coords g)).
  Proof.
    intros [_ (lvl & R) _ _ Hc]. rewrite (num_coords_ok m lvl nodes g R). unfold wrap32. apply N.mod_small. change (2 ^ 32) with 4294967296 in Hc. change u32_max1 with 4294967296%N. lia.
  Qed.

  Lemma append_geom_ok k l d w els m nodes g x : k <> KBox -> holding k l d w els -> item_ok d m nodes g ->
    store k d g = Some x -> small (n_lists k) x ->
    exists w', append_geom junk w m nodes = VRet w' 0 /\ holding k l d w' (els ++ [Some x]).
  Proof.
    intros Hk H Hi Hx Hs. unfold append_geom. rewrite (count_ok d m nodes g Hi). rewrite store_cases in Hx.
    destruct (geom_coords g) as [|c0 cs0] eqn:Eg.
    - injection Hx as <-. cbn [length N.of_nat]. change (0 =? 0)%N with true. cbn iota.
      destruct (append_empty_ok k l d w _ _ Hk (ho_built _ _ _ _ _ H)) as (w1 & E1 & W1 & F1). rewrite E1.
      cbn [wthen]. change (0 =? 0) with true. cbn iota. exact (append_validity_ok k l d w w1 els _ (Some _) H F1 W1 eq_refl).
    - rewrite <- Eg. destruct (N.eqb_spec (N.of_nat (length (geom_coords g))) 0) as [H0|_]; [rewrite Eg in H0; discriminate H0|].
      pose proof Hi as [Hst (lvl & R) Hwf Hsw Hc].
      destruct (append_offsets_ok junk junk_bytes k l d w _ _ m lvl nodes g x Hk (ho_built _ _ _ _ _ H) R Hx Hs Hc) as (w1 & E1 & W1 & F1).
      rewrite E1. cbn [wthen]. change (0 =? 0) with true. cbn iota.
      pose proof W1 as (B1 & L1). destruct (cfg_init k l d _ Hk (bu_cfg _ _ _ _ _ _ B1)) as (Hcc & Hg & _).
      destruct (coords_reserve_ok junk junk_bytes l d _ (nw_builder w1) _ (Z.of_N (N.of_nat (length (geom_coords g)))) Hcc (bu_good _ _ _ _ _ _ B1) (bu_coords _ _ _ _ _ _ B1) ltac:(lia))
        as (b2 & E2 & G2 & C2 & Cap2 & X2 & L2 & Fr2).
      rewrite E2. cbn [on_builder wthen]. change (0 =? 0) with true. cbn iota. cbn [nw_builder with_builder].
      assert (coord_cfg l d (1 + n_lists k) b2) as Hcc2.
      { destruct X2 as (bufs & next & values & cap & ->). destruct Hcc as [K1 K2 K3 K4 K5]. constructor; assumption. }
      assert (built k l d b2 (plus (counts (n_lists k) (map (element k d) els)) (counts (n_lists k) [x])) (leaves (n_lists k) (map (element k d) els))) as B2.
      { eapply (built_coords junk junk_bytes); eauto. destruct X2 as (bufs & next & values & cap & X2). eauto 10. }
      rewrite nat_N_Z in Cap2.
      destruct (geom_coords_append junk junk_bytes l d _ b2 _ m lvl nodes g Hcc2 G2 C2 Hst R Hwf Hsw Cap2) as (b3 & E3 & H3).
      cbn zeta in H3. destruct H3 as (G3 & C3 & _ & X3 & L3 & Fr3).
      rewrite E3. cbn [on_builder wthen]. change (0 =? 0) with true. cbn iota. cbn [nw_builder with_builder]. rewrite nat_N_Z.
      set (b4 := with_coord_view b3 _ _ _) in *.
      eapply (append_validity_ok k l d w _ els x (Some x)); [exact H| | |reflexivity].
      + eapply frame_trans; [exact F1|]. exists b4, (nw_last w1). destruct w1; reflexivity.
      + split; [|exact L1]. cbn [nw_builder with_builder].
        eapply built_ext; [eapply (built_coords junk junk_bytes); [exact B2|exact G3|exact C3|exact X3|exact L3|exact Fr3]|reflexivity|].
        rewrite (store_leaves k d g x Hx). reflexivity.
  Qed.

  (** ** A new array *)
  Record zeroed (k : geometry_kind) (l : layout) (d : dim) (i : nat) (b : builder) : Prop := {
    ze_cfg : cfg (make_type (geometry_kind_code k) (dim_code d) (layout_code l)) b;
    ze_good : good b;
    ze_len : length (bd_bufs b) = buffer_count (ANative k l d);
    ze_offs : forall j, (j < i)%nat -> exists c, nth_error (bd_bufs b) (S j) = Some c /\ has_data c (offset_buffer []);
    ze_rest : forall j c, nth_error (bd_bufs b) j = Some c -> (j = 0 \/ i < j)%nat -> bf c = wbuf_init;
    ze_values : length (bd_values b) = 8%nat
  }.

  Lemma append_zeros_ok k l d : forall n i b, zeroed k l d i b -> (i + n = n_lists k)%nat ->
    exists b', append_zeros junk n b (Z.of_nat i) = Ok b' /\ zeroed k l d (n_lists k) b'.
  Proof.
    induction n as [|n IH]; intros i b Hz Hn; cbn [append_zeros].
    - exists b. split; [reflexivity|]. replace (n_lists k) with i by lia. exact Hz.
    - pose proof Hz as [Z1 Z2 Z3 Z4 Z5 Z6]. destruct (nth_error (bd_bufs b) (S i)) as [c|] eqn:Ec.
      2:{ apply nth_error_None in Ec. cbn [buffer_count] in Z3. lia. }
      assert (bf c = wbuf_init) as Hc by (apply (Z5 _ _ Ec); lia).
      destruct (offset_append_ok junk junk_bytes b i c [] 0 Z2 Ec) as (c' & next & E & G & D).
      { split; [rewrite Hc; reflexivity|]. exists []. rewrite Hc. reflexivity. }
      { reflexivity. }
      rewrite E. cbn [obind]. replace (Z.of_nat i + 1) with (Z.of_nat (S i)) by lia. apply IH; [|lia].
      constructor; cbn [bd_bufs with_bufs bd_values]; auto.
      + rewrite set_nth_length. exact Z3.
      + intros j Hj. destruct (Nat.eq_dec j i) as [->|Hne].
        * exists c'. split; [eapply nth_error_set_same; exact Ec|exact D].
        * rewrite nth_error_set_other by lia. apply Z4. lia.
      + intros j c1 Hc1 Hj. rewrite nth_error_set_other in Hc1 by lia. apply (Z5 _ _ Hc1). lia.
  Qed.

  Lemma zeroed_built k l d b : k <> KBox -> zeroed k l d (n_lists k) b -> built k l d (with_coord_view b (bd_values b) 0 0) (fun _ => []) [].
  Proof.
    intros Hk [Z1 Z2 Z3 Z4 Z5 Z6]. constructor; auto.
    - cbn [bd_bufs with_coord_view]. destruct (nth_error (bd_bufs b) 0) as [c|] eqn:Ec.
      + exists c. split; [reflexivity|]. apply (Z5 _ _ Ec). lia.
      + apply nth_error_None in Ec. cbn [buffer_count] in Z3. lia.
    - constructor; cbn [bd_bufs bd_size bd_cap bd_values with_coord_view].
      + exists 0. split; [lia|]. intros q Hq. destruct (nth_error (bd_bufs b) (1 + n_lists k + q)) as [c|] eqn:Ec.
        * exists c. split; [reflexivity|]. rewrite (Z5 _ _ Ec) by lia. cbn. split; [reflexivity|lia].
        * apply nth_error_None in Ec. cbn [buffer_count] in Z3. rewrite (ncols_columns k l d Hk) in Z3. lia.
      + reflexivity.
      + lia.
      + intros Hlt. lia.
      + exact Z6.
      + intros r c j w Hr. destruct r; discriminate.
      + constructor.
  Qed.

  Lemma ensure_output_ok k l d w bits : k <> KBox -> zeroed k l d 0 (nw_builder w) -> bstate (nw_validity w) bits ->
    exists w', ensure_output junk w = Ok w' /\ holding k l d w' [] /\
      (nw_is_null w' = nw_is_null w /\ nw_nesting w' = nw_nesting w /\ nw_dims w' = nw_dims w /\ nw_size w' = nw_size w /\ nw_level w' = nw_level w).
  Proof.
    intros Hk Hz Hb. unfold ensure_output. destruct (cfg_init k l d _ Hk (ze_cfg _ _ _ _ _ Hz)) as (_ & _ & Hn). rewrite Hn, Nat2Z.id.
    destruct (append_zeros_ok k l d (n_lists k) 0 (nw_builder w) Hz ltac:(lia)) as (b' & E & Z'). change (Z.of_nat 0) with 0 in E. rewrite E. cbn [obind].
    eexists. split; [reflexivity|]. split; [|repeat split]. constructor; cbn [nw_length nw_null_count nw_validity nw_builder map length].
    - split.
      + eapply built_ext; [apply (zeroed_built k l d b' Hk Z')| |].
        * intros i Hi. cbn [nw_builder]. clear. generalize (n_lists k) i. induction n as [|n IH]; intros j; [reflexivity|]. destruct j; [reflexivity|]. apply IH.
        * clear. generalize (n_lists k). induction n as [|n IH]; [reflexivity|]. exact IH.
      + intros i Hi. assert (counts (n_lists k) [] i = []) as ->.
        { clear. generalize (n_lists k) i. induction n as [|n IH]; intros j; [reflexivity|]. destruct j; [reflexivity|]. apply IH. }
        pose proof (n_lists_le k). destruct i as [|[|[|i]]]; try reflexivity. lia.
    - reflexivity.
    - reflexivity.
    - eapply bstate_clear. exact Hb.
  Qed.

  Lemma fresh_zeroed k l d b b' : k <> KBox -> cfg (make_type (geometry_kind_code k) (dim_code d) (layout_code l)) b -> (2 <= bd_next b)%nat ->
    length (bd_values b) = 8%nat -> builder_renew b = Ok b' -> zeroed k l d 0 b'.
  Proof.
    intros Hk Hc Hn Hv Hr.
    destruct (fresh_filling junk junk_bytes (ANative k l d) _ b (kind_supported k d l Hk) (or_introl eq_refl) Hc Hn b' Hr) as ([F1 F2 F3 F4 F5] & F6).
    constructor; auto.
    - intros j Hj. lia.
    - intros j c Hj _. destruct (F4 j c Hj) as ((Hs & rest & Hm) & Ha). cbn in Hs, Hm. assert (~ 0 < w_cap (bf c)) as H0 by (rewrite <- Ha; discriminate).
      unfold w_cap in H0. destruct (bf c) as [mm sz]. cbn [w_mem w_size] in *. destruct mm; [|cbn [length] in H0; lia]. subst sz. reflexivity.
    - rewrite F6, skipn_length, Hv. reflexivity.
  Qed.

  Lemma writer_init_dims k l d : k <> KBox ->
    exists w, writer_init junk (make_type (geometry_kind_code k) (dim_code d) (layout_code l)) = Ok w /\ holding k l d w [] /\ nw_dims w = 0.
  Proof.
    intros Hk. unfold writer_init.
    destruct (init_ok (ANative k l d) _ (kind_supported k d l Hk) (or_introl eq_refl)) as (b & E). rewrite E. cbn [obind].
    assert (zeroed k l d 0 b) as Hz.
    { pose proof E as E0. unfold builder_init in E. destruct (_ || _); [discriminate|]. destruct (array_view_init _); cbn [obind] in E; try discriminate.
      destruct (schema_init _); cbn [obind] in E; try discriminate.
      match type of E with builder_renew ?x = _ => set (b1 := x) in * end.
      apply (fresh_zeroed k l d b1 b Hk); [| |reflexivity|exact E].
      - exists b. split; [exact E0|]. unfold builder_renew in E. destruct (negb _); [discriminate|]. injection E as <-. repeat split.
      - cbn. unfold first_block. lia. }
    match goal with |- exists w, ensure_output junk ?w0 = Ok w /\ _ => destruct (ensure_output_ok k l d w0 [] Hk Hz bstate_init) as (w' & E' & H' & D') end.
    exists w'. split; [exact E'|]. split; [exact H'|cbn in D'; tauto].
  Qed.
  Lemma writer_init_ok k l d : k <> KBox -> exists w, writer_init junk (make_type (geometry_kind_code k) (dim_code d) (layout_code l)) = Ok w /\ holding k l d w [].
  Proof. intros Hk. destruct (writer_init_dims k l d Hk) as (w & E & H & _). eauto. Qed.

  (** ** Finishing *)
  Lemma nest_geom_at k l d a i x : k <> KBox -> nest_at l d (n_lists k) a i x -> geom_at k l d a i (nest_geom k d x).
  Proof. intros Hk H. destruct k; try contradiction; cbn in *; eexists; split; try exact H; reflexivity. Qed.

  Lemma set_null_fields c a : aa_length (set_null_count c a) = aa_length a /\ aa_offset (set_null_count c a) = aa_offset a /\
    aa_buffers (set_null_count c a) = aa_buffers a /\ aa_children (set_null_count c a) = aa_children a.
  Proof. destruct a. repeat split. Qed.

  Lemma nested_null l d n c a : nested l d n a -> nested l d n (set_null_count c a).
  Proof.
    destruct (set_null_fields c a) as (H1 & H2 & H3 & H4). destruct n; cbn [nested]; unfold coords_ok, list_ok; rewrite H1, H2, H3, H4; auto.
  Qed.
  Lemma nest_at_null l d n c a i x : nest_at l d n a i x -> nest_at l d n (set_null_count c a) i x.
  Proof.
    destruct (set_null_fields c a) as (H1 & H2 & H3 & H4). destruct n; cbn [nest_at].
    - unfold coord_at, ordinate_at. rewrite H2, H4. auto.
    - unfold list_at, second_buffer. rewrite H2, H3, H4. auto.
  Qed.
  Lemma with_null_set c a : with_null_count a c = set_null_count c a.
  Proof. destruct a. reflexivity. Qed.
  Lemma set_null_twice c c' a : set_null_count c (set_null_count c' a) = set_null_count c a.
  Proof. destruct a. reflexivity. Qed.

  (** An array made of buffers for [els] with a bitmap that fits. *)
  Lemma assembled_ok k l d els v cols c : k <> KBox ->
    columns_ok l d (leaves (n_lists k) (map (element k d) els)) cols -> total_small (n_lists k) (map (element k d) els) ->
    match v with
    | None => Forall (eq true) (map is_valid els)
    | Some b => holds_bits b (map is_valid els) /\ Z.of_nat (length els) <= 8 * blen b
    end ->
    let a := set_null_count c (assembled (ANative k l d) v (offset_buffers (n_lists k) (map (element k d) els) ++ cols)) in
    native_ok k l d a /\ contents k l d a (shown k d els).
  Proof.
    intros Hk Hc Ht Hv. cbn zeta. unfold assembled. rewrite set_null_twice.
    set (vals := map (element k d) els) in *.
    assert (length (offset_buffers (n_lists k) vals) = n_lists k) as HL by (rewrite offset_buffers_counts, map_length, seq_length; reflexivity).
    assert (firstn (n_lists k) (offset_buffers (n_lists k) vals ++ cols) = offset_buffers (n_lists k) vals) as HF.
    { rewrite <- HL at 1. rewrite firstn_app, Nat.sub_diag, firstn_O, app_nil_r. apply firstn_all. }
    assert (skipn (n_lists k) (offset_buffers (n_lists k) vals ++ cols) = cols) as HS.
    { rewrite <- HL at 1. rewrite skipn_app, Nat.sub_diag, skipn_all. reflexivity. }
    rewrite HF, HS. destruct (list_array_ok l d cols (n_lists k) vals v Hc Ht) as (N & L & O & B & At). cbn zeta in *.
    set (a := list_array _ _ v) in *. destruct (set_null_fields c a) as (F1 & F2 & F3 & F4).
    assert (nth_error (aa_buffers a) 0 = Some v) as HB.
    { unfold a in *. clear - B. destruct (offset_buffers (n_lists k) vals); [destruct l|]; reflexivity. }
    assert (length vals = length els) as Hvl by apply map_length. rewrite Hvl in L.
    split.
    - split.
      + unfold validity_ok. rewrite F3, HB, F1, F2, O, L. destruct v as [b|]; [|exact I]. destruct Hv as (_ & Hv). unfold blen in Hv. lia.
      + pose proof (nested_null l d (n_lists k) c a N) as N'. destruct k; try contradiction; exact N'.
    - split.
      + rewrite F1, L. unfold shown. rewrite map_length. reflexivity.
      + intros i e He. unfold shown in He. rewrite nth_error_map in He. destruct (nth_error els i) as [e0|] eqn:Ee; [|discriminate]. injection He as <-.
        assert (valid_at (set_null_count c a) (Z.of_nat i) = Some (is_valid e0)) as HV.
        { unfold valid_at. rewrite F3, HB, F2, O. destruct v as [b|].
          - destruct Hv as (Hv & _). rewrite Z.add_0_l. apply Hv. rewrite nth_error_map, Ee. reflexivity.
          - rewrite Forall_forall in Hv. f_equal. apply Hv. apply in_map. eapply nth_error_In. exact Ee. }
        unfold element_at. destruct e0 as [x|]; cbn [option_map is_valid] in *; [|exact HV]. split; [exact HV|]. apply nest_geom_at; [exact Hk|].
        apply nest_at_null. apply At. unfold vals. rewrite nth_error_map, Ee. reflexivity.
  Qed.

  Lemma holds_bits_firstn mem n bits : Z.of_nat (length bits) <= 8 * Z.of_nat n -> (n <= length mem)%nat -> holds_bits mem bits -> holds_bits (firstn n mem) bits.
  Proof.
    intros H Hn Hb i b Hi. assert (i < length bits)%nat by (apply nth_error_Some; congruence).
    rewrite bit_of_firstn by lia. apply Hb. exact Hi.
  Qed.

  (** The end of an array, given what its buffers hold. *)
  Lemma finish_built k l d w cnt cs bits : k <> KBox -> built k l d (nw_builder w) cnt cs -> bstate (nw_validity w) bits ->
    exists v cols, columns_ok l d cs cols /\
      match v with None => Forall (eq true) bits | Some b => holds_bits b bits /\ Z.of_nat (length bits) <= 8 * blen b end /\
      let bufs := map (fun i => offset_buffer (cnt i)) (seq 0 (n_lists k)) ++ cols in
      (fits (ANative k l d) v bufs ->
       exists w', writer_finish junk w = Ok (set_null_count (nw_null_count w) (assembled (ANative k l d) v bufs), w') /\ holding k l d w' [] /\
         nw_dims w' = nw_dims w) /\
      (~ fits (ANative k l d) v bufs -> writer_finish junk w = Err EINVAL).
  Proof.
    intros Hk Hb (Hwfm & bb & Hbm & Hv). pose proof Hb as [B1 B2 B3 (c0 & B4 & B4') B5 B6]. pose proof Hbm as [M1 M2 M3 M4].
    set (vb := bm_buffer (nw_validity w)) in *.
    assert (exists v b1, (if 0 <? w_size vb then do bs <- or_ub (slice (w_mem vb) 0 (Z.to_nat (w_size vb))); append_buffer junk (nw_builder w) 0 bs else Ok (nw_builder w)) = Ok b1 /\
      cfg (make_type (geometry_kind_code k) (dim_code d) (layout_code l)) b1 /\ length (bd_bufs b1) = buffer_count (ANative k l d) /\
      (exists bs (alloc : bool), v = (if alloc then Some bs else None) /\ exists c, nth_error (bd_bufs b1) 0 = Some c /\ holds c bs alloc) /\
      (forall i, (i < n_lists k)%nat -> exists c, nth_error (bd_bufs b1) (S i) = Some c /\ has_data c (offset_buffer (cnt i))) /\
      coords_in l d b1 (1 + n_lists k) cs /\ (2 <= bd_next b1)%nat /\ length (bd_values b1) = 8%nat /\
      match v with None => Forall (eq true) bits | Some b => holds_bits b bits /\ Z.of_nat (length bits) <= 8 * blen b end)
      as (v & b1 & E1 & C1 & L1 & (bs & alloc & Ev & Hh) & O1 & Ci1 & N1 & V1 & Hvalid).
    { destruct (Z.ltb_spec 0 (w_size vb)) as [Hpos|Hz].
      - assert (w_null vb = false) as Hn.
        { unfold w_null, w_cap in *. destruct (w_mem vb); [cbn [length] in M3; lia|reflexivity]. }
        rewrite Hn in Hv. subst bb.
        assert (slice (w_mem vb) 0 (Z.to_nat (w_size vb)) = Some (firstn (Z.to_nat (w_size vb)) (w_mem vb))) as Hsl.
        { unfold slice, w_cap in *. destruct (Z.leb_spec 0 0); [|lia]. destruct (Z.leb_spec (0 + Z.of_nat (Z.to_nat (w_size vb))) (Z.of_nat (length (w_mem vb)))); [|lia]. reflexivity. }
        rewrite Hsl. cbn [or_ub obind]. set (bs := firstn _ _).
        assert (Z.of_nat (length bs) = w_size vb) as Hbl. { unfold bs, w_cap in *. rewrite firstn_length. lia. }
        destruct (append_buffer_ok junk junk_bytes (nw_builder w) 0 c0 [] bs B2 B4) as (c' & next & E & G & D & W).
        { split; [rewrite B4'; reflexivity|exists []; rewrite B4'; reflexivity]. }
        { unfold bs. apply Forall_firstn. exact Hwfm. }
        change (Z.of_nat 0) with 0 in E. exists (Some bs), (with_bufs (nw_builder w) (set_nth 0 c' (bd_bufs (nw_builder w))) next).
        split; [exact E|]. split; [exact B1|]. split; [cbn [bd_bufs with_bufs]; rewrite set_nth_length; exact B3|].
        split; [|split; [|split; [|split; [apply G|split; [apply B6|]]]]].
        + exists bs, true. split; [reflexivity|]. exists c'. split; [eapply nth_error_set_same; exact B4|]. split; [exact D|]. split; [intros _|reflexivity].
          rewrite W. pose proof (new_capacity_ge (w_size (bf c0)) (w_cap (bf c0)) (Z.of_nat (length bs))) as Hge. rewrite B4' in *. cbn [w_size wbuf_init] in *.
          specialize (Hge ltac:(unfold w_cap; cbn; lia) ltac:(unfold w_cap; cbn; lia)). lia.
        + intros i Hi. cbn [bd_bufs with_bufs]. rewrite nth_error_set_other by lia. apply B5. exact Hi.
        + apply coords_in_frame; [exact B6|]. intros q Hq. apply nth_error_set_other. lia.
        + pose proof (bytes_needed_bound (Z.of_nat (length bits)) ltac:(lia)). split; [|unfold blen; lia]. apply holds_bits_firstn; [lia| |exact M4]. unfold w_cap in M3. lia.
      - exists None, (nw_builder w). split; [reflexivity|]. split; [exact B1|]. split; [exact B3|].
        split; [|split; [|split; [|split; [apply B2|split; [apply B6|]]]]].
        + exists [], false. split; [reflexivity|]. exists c0. split; [exact B4|]. split; [split; [rewrite B4'; reflexivity|exists []; rewrite B4'; reflexivity]|].
          rewrite B4'. split; [discriminate|intros H; discriminate H].
        + exact B5.
        + exact B6.
        + destruct (w_null vb); [apply Hv|]. subst bb. pose proof (bytes_needed_bound (Z.of_nat (length bits)) ltac:(lia)). destruct bits; [constructor|cbn [length] in *; lia]. }
    destruct (finish_general junk junk_bytes k l d b1 cnt cs bs alloc Hk C1 L1 Hh O1 Ci1) as (b' & cols & Er & Hcols & Hout). cbn zeta in Hout. rewrite <- Ev in Hout.
    exists v, cols. split; [exact Hcols|]. split; [exact Hvalid|]. cbn zeta. unfold writer_finish. fold vb. rewrite E1. cbn [obind].
    destruct Hout as [(Hf & ->)|(Hf & ->)]; (split; [intros Hfit|intros Hfit]); try contradiction; cbn [obind]; [|reflexivity].
    destruct (ensure_output_ok k l d (with_builder w b') bits Hk) as (w' & E' & H' & K1 & K2 & K3 & K4 & K5).
    { apply (fresh_zeroed k l d b1 b' Hk C1 N1 V1 Er). }
    { split; [exact Hwfm|]. exists bb. split; assumption. }
    rewrite E'. cbn [obind]. exists w'. split; [rewrite with_null_set; reflexivity|]. split; [exact H'|exact K3].
  Qed.
End Junk.
