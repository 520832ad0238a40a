(** * What the visitors of a native writer leave in its buffers *)
From Verif Require Import Base BaseFacts TypesModel GeomSpec VisitorModel VisitorSpec VisitorFacts BufferModel BufferFacts CoordsModel BitmapModel BitmapSpec BitmapProofs
  ArrowModel ArrayViewModel NativeSpec NativeProofs GeomFacts NodesModel NodesSpec CopyCoordsModel CopyCoordsSpec CopyCoordsProofs
  BuilderModel BuilderSpec BuilderRun BuilderFacts BuilderCoords BuilderAppend BuilderFinish BuilderProofs
  NativeWriterModel NativeWriterSpec NativeWriterFacts NativeWriterAppend NativeWriterGeom NativeWriterArray NativeWriterFinish NativeWriterRun
  NativeWriterProofs NativeWriterHistory NativeVisitorSpec.
Local Open Scope Z_scope.

(** ** Sequences of events *)
Lemma feed_app_fail {S} (v : visitor S) s s1 c a b : feed v s a = Some (s1, c) -> c <> 0 -> feed v s (a ++ b) = Some (s1, c).
Proof.
  intros H Hc. rewrite feed_app, H. destruct (Z.eqb_spec c 0); [contradiction|reflexivity].
Qed.

(** The events are handled without an error unless the number [n] of coordinates is too large for an offset. *)
Definition ends {S} (v : visitor S) (w : S) (evs : list event) (n : Z) (Q : S -> Prop) : Prop :=
  exists w' c, feed v w evs = Some (w', c) /\ ((n <= int32_max /\ c = 0 /\ Q w') \/ (int32_max < n /\ c = EOVERFLOW)).

Lemma ends_app {S} (v : visitor S) w e1 e2 n1 n2 (Q1 Q2 : S -> Prop) : ends v w e1 n1 Q1 -> n1 <= n2 ->
  (n1 <= int32_max -> forall w', Q1 w' -> ends v w' e2 n2 Q2) -> ends v w (e1 ++ e2) n2 Q2.
Proof.
  intros (w1 & c1 & E1 & [(Hn & -> & HQ)|(Hn & ->)]) Hle H2.
  - destruct (H2 Hn w1 HQ) as (w2 & c2 & E2 & R2). exists w2, c2. rewrite (feed_app_ok _ _ w1) by exact E1. split; [exact E2|exact R2].
  - exists w1, EOVERFLOW. split; [apply feed_app_fail; [exact E1|discriminate]|]. right. split; [lia|reflexivity].
Qed.
Lemma ends_ok {S} (v : visitor S) w evs n (Q : S -> Prop) w' : feed v w evs = Some (w', 0) -> n <= int32_max -> Q w' -> ends v w evs n Q.
Proof. intros E Hn HQ. exists w', 0. split; [exact E|]. left. auto. Qed.
Lemma ends_cons {S} (v : visitor S) w w1 e evs n (Q : S -> Prop) : v w e = VRet w1 0 -> ends v w1 evs n Q -> ends v w (e :: evs) n Q.
Proof. intros E (w' & c & E' & R). exists w', c. rewrite (feed_cons_ok _ _ _ _ _ E). auto. Qed.
Lemma ends_pre {S} (v : visitor S) w w1 e1 e2 n (Q : S -> Prop) : feed v w e1 = Some (w1, 0) -> ends v w1 e2 n Q -> ends v w (e1 ++ e2) n Q.
Proof. intros E (w' & c & E' & R). exists w', c. rewrite (feed_app_ok _ _ _ _ _ E). auto. Qed.
Lemma ends_impl {S} (v : visitor S) w evs n (Q Q' : S -> Prop) : ends v w evs n Q -> (forall w', Q w' -> Q' w') -> ends v w evs n Q'.
Proof. intros (w' & c & E & [(H1 & H2 & H3)|H]) HQ; exists w', c; (split; [exact E|]); [left|right]; auto. Qed.

Definition qadd (q : quad Z) (j : nat) (x : Z) : quad Z := qset q j (match qget q j with Some s => s | None => 0 end + x).
Lemma qadd_0 q j : (j < 4)%nat -> qadd q j 0 = q.
Proof. intros H. destruct q as [a b c e]. do 4 (destruct j as [|j]; [cbn; rewrite Z.add_0_r; reflexivity|]). lia. Qed.
Lemma qadd_qadd q j x y : (j < 4)%nat -> qadd (qadd q j x) j y = qadd q j (x + y).
Proof. intros H. destruct q as [a b c e]. do 4 (destruct j as [|j]; [cbn; rewrite Z.add_assoc; reflexivity|]). lia. Qed.

Lemma dims_code d : Z.of_N (dimN d) = dim_code d.
Proof. destruct d; reflexivity. Qed.
Lemma seen_dim d : seen_dims (dim_code d).
Proof. right. eauto. Qed.

Lemma total_nil : total [] = 0.
Proof. reflexivity. Qed.
Lemma at_same i xs : at_level i xs i = xs.
Proof. unfold at_level. rewrite Nat.eqb_refl. reflexivity. Qed.
Lemma at_other i j xs : i <> j -> at_level i xs j = [].
Proof. unfold at_level. intros H. destruct (Nat.eqb_spec j i); [congruence|reflexivity]. Qed.
Lemma add_same i x cnt : add_at i x cnt i = cnt i ++ [x].
Proof. unfold add_at. rewrite Nat.eqb_refl. reflexivity. Qed.
Lemma add_other i j x cnt : i <> j -> add_at i x cnt j = cnt j.
Proof. unfold add_at. intros H. destruct (Nat.eqb_spec j i); [congruence|reflexivity]. Qed.

(** ** Facts about sequences *)
Lemma concat_nonempty {A} (l : list (list A)) : concat (filter nonempty l) = concat l.
Proof. induction l as [|x l IH]; [reflexivity|]. destruct x; cbn [filter nonempty concat app]; [exact IH|]. f_equal. f_equal. exact IH. Qed.
Lemma sequences_coll d c s parts : c <> CMultipoint -> sequences d (GColl c s parts) = flat_map (sequences d) parts.
Proof.
  intros Hc. assert ((fix go gs := match gs with [] => [] | g :: gs => sequences d g ++ go gs end) parts = flat_map (sequences d) parts) as H.
  { induction parts as [|p parts IH]; [reflexivity|]. cbn [flat_map]. rewrite IH. reflexivity. }
  destruct c; [contradiction| | |]; exact H.
Qed.
Lemma groups_coll d c s parts : c = CMultipolygon \/ c = CCollection -> groups d (GColl c s parts) = flat_map (groups d) parts.
Proof.
  intros Hc. assert ((fix go gs := match gs with [] => [] | g :: gs => groups d g ++ go gs end) parts = flat_map (groups d) parts) as H.
  { induction parts as [|p parts IH]; [reflexivity|]. cbn [flat_map]. rewrite IH. reflexivity. }
  destruct Hc as [-> | ->]; exact H.
Qed.

Lemma concat_sequences d g : concat (sequences d g) = all_coords d g.
Proof.
  induction g as [s cs|s cs|s rings|c s parts IH] using geom_ind'.
  - cbn [sequences concat]. unfold all_coords. cbn [geom_coords]. rewrite app_nil_r, map_map. reflexivity.
  - cbn [sequences concat]. unfold all_coords. cbn [geom_coords]. rewrite app_nil_r, map_map. reflexivity.
  - cbn [sequences]. unfold all_coords. cbn [geom_coords]. rewrite map_map. rewrite <- concat_map. reflexivity.
  - rewrite all_coords_coll. destruct c.
    1: { cbn [sequences concat]. rewrite app_nil_r. apply all_coords_coll. }
    all: rewrite sequences_coll by discriminate; induction IH as [|p parts Hp _ IH]; [reflexivity|]; cbn [flat_map]; rewrite concat_app, Hp, IH; reflexivity.
Qed.

Lemma len_conv s d (acc cs : list coord) : Z.of_nat (length (acc ++ map (convert_coord s d) cs)) = Z.of_nat (length acc) + Z.of_nat (length cs).
Proof. rewrite app_length, Nat2Z.inj_add. f_equal. f_equal. apply map_length. Qed.
Lemma len_app (a b : list coord) : Z.of_nat (length (a ++ b)) = Z.of_nat (length a) + Z.of_nat (length b).
Proof. rewrite app_length. apply Nat2Z.inj_add. Qed.

Lemma len_rings d s rings : Z.of_nat (length (concat (sequences d (GPoly s rings)))) = Z.of_nat (length (concat rings)).
Proof. cbn [sequences]. rewrite <- concat_map. f_equal. apply map_length. Qed.

Section Visit.
  Variable junk : nat -> nat -> N.
  Hypothesis junk_bytes : forall i j, is_byte (junk i j).
  Variables (k : geometry_kind) (l : layout) (d : dim).
  Hypothesis not_box : k <> KBox.

  (** The parts of a writer that change within a feature. *)
  Section Within.
    Variables (bm : bitmap) (nc len : Z) (last : quad Z) (null : bool).
    Definition W (b : builder) (nesting dims : Z) (size : quad Z) (level : Z) : nwriter := NWriter b bm nc len last null nesting dims size level.

    (** Coordinates. *)
    Lemma visit_coords_ok b nst s q lev cnt acc cs : built k l d b cnt acc -> wf_seq s cs ->
      exists b', visit_coords junk (W b nst (dim_code s) q lev) (N.of_nat (ndim s)) cs = VRet (W b' nst (dim_code s) q lev) 0 /\
        built k l d b' cnt (acc ++ map (convert_coord s d) cs).
    Proof.
      intros Hb Hw. destruct (cfg_init k l d _ not_box (bu_cfg _ _ _ _ _ _ Hb)) as (Hcc & _ & _).
      destruct (event_coords_append junk junk_bytes l d _ b acc s cs Hcc (bu_good _ _ _ _ _ _ Hb) (bu_coords _ _ _ _ _ _ Hb) Hw)
        as (b' & E & G & C & _ & X & L & F).
      unfold visit_coords. cbn [W nw_builder nw_dims]. rewrite E. cbn [on_builder]. exists b'. split; [reflexivity|].
      eapply (built_coords junk junk_bytes); eassumption.
    Qed.

    Lemma seq_ok (v : visitor nwriter) j : (j < 4)%nat ->
      (forall w n cs, v w (ECoords n cs) = visit_coords junk (add_size w j (Z.of_nat (length cs))) n cs) ->
      forall s cs evs, seq_events s cs evs -> wf_seq s cs -> forall b nst q lev cnt acc, built k l d b cnt acc ->
      exists b', feed v (W b nst (dim_code s) q lev) evs = Some (W b' nst (dim_code s) (qadd q j (Z.of_nat (length cs))) lev, 0) /\
        built k l d b' cnt (acc ++ map (convert_coord s d) cs).
    Proof.
      intros Hj Hv s cs evs H. induction H as [|c cs evs _ IH]; intros Hw b nst q lev cnt acc Hb.
      - exists b. cbn [feed length map]. rewrite qadd_0, app_nil_r by exact Hj. auto.
      - apply Forall_app in Hw. destruct Hw as (Hw1 & Hw2). cbn [feed]. rewrite Hv.
        change (add_size (W b nst (dim_code s) q lev) j (Z.of_nat (length c))) with (W b nst (dim_code s) (qadd q j (Z.of_nat (length c))) lev).
        destruct (visit_coords_ok b nst s (qadd q j (Z.of_nat (length c))) lev cnt acc c Hb Hw1) as (b1 & E1 & B1). rewrite E1. change (0 =? 0) with true. cbn iota.
        destruct (IH Hw2 b1 nst (qadd q j (Z.of_nat (length c))) lev cnt _ B1) as (b2 & E2 & B2). exists b2. rewrite E2.
        rewrite qadd_qadd by exact Hj. rewrite app_length, Nat2Z.inj_add. split; [reflexivity|]. rewrite map_app, app_assoc. exact B2.
    Qed.

    (** The number of coordinates as an offset. *)
    Lemma coord_offset_ok b nst dm q lev cnt acc i : built k l d b cnt acc -> (i < n_lists k)%nat ->
      if int32_max <? Z.of_nat (length acc)
      then append_coord_offset junk (W b nst dm q lev) (Z.of_nat i) = VRet (W b nst dm q lev) EOVERFLOW
      else exists b', append_coord_offset junk (W b nst dm q lev) (Z.of_nat i) = VRet (W b' nst dm q lev) 0 /\
        built k l d b' (add_at i (Z.of_nat (length acc) - total (cnt i)) cnt) acc.
    Proof.
      intros Hb Hi. unfold append_coord_offset. cbn [W nw_builder]. rewrite (ci_size _ _ _ _ _ (bu_coords _ _ _ _ _ _ Hb)).
      destruct (int32_max <? Z.of_nat (length acc)); [reflexivity|].
      destruct (built_push junk junk_bytes k l d b cnt acc i (Z.of_nat (length acc)) (Z.of_nat (length acc) - total (cnt i)) Hb Hi) as (b' & E & B).
      { f_equal. lia. }
      rewrite E. exists b'. split; [reflexivity|exact B].
    Qed.

    (** The number of entries of the next level as an offset. *)
    Lemma count_buf b cnt acc i : built k l d b cnt acc -> (i < n_lists k)%nat ->
      exists c, get_buf b (Z.of_nat (S i)) = Ok c /\ w_size (bf c) / 4 = Z.of_nat (length (cnt i)) + 1.
    Proof.
      intros Hb Hi. destruct (bu_offs _ _ _ _ _ _ Hb i Hi) as (c & Ec & (Hs & _)). exists c. unfold get_buf.
      destruct (Z.ltb_spec (Z.of_nat (S i)) 0); [lia|]. rewrite Nat2Z.id, Ec. split; [reflexivity|]. rewrite Hs.
      pose proof (buffer_blen (cnt i)) as Hl. unfold blen, offset_buffer in Hl. rewrite Hl. rewrite Z.mul_comm, Z.div_mul by lia. reflexivity.
    Qed.
    Lemma count_offset_ok b nst dm q lev cnt acc i : built k l d b cnt acc -> (S i < n_lists k)%nat -> Z.of_nat (length (cnt (S i))) < int32_max ->
      exists b', append_count_offset junk (W b nst dm q lev) (Z.of_nat i) = VRet (W b' nst dm q lev) 0 /\
        built k l d b' (add_at i (Z.of_nat (length (cnt (S i))) - total (cnt i)) cnt) acc.
    Proof.
      intros Hb Hi Hm. unfold append_count_offset. cbn [W nw_builder]. destruct (count_buf b cnt acc (S i) Hb Hi) as (c & Ec & Hc).
      replace (Z.of_nat i + 2) with (Z.of_nat (S (S i))) by lia. rewrite Ec, Hc. unfold int32_max in Hm. rewrite to_int32_small by lia. cbn zeta.
      destruct (Z.eqb_spec (Z.of_nat (length (cnt (S i))) + 1) (- 2147483648)); [lia|].
      destruct (built_push junk junk_bytes k l d b cnt acc i (Z.of_nat (length (cnt (S i))) + 1 - 1) (Z.of_nat (length (cnt (S i))) - total (cnt i)) Hb ltac:(lia)) as (b' & E & B).
      { f_equal. lia. }
      rewrite E. exists b'. split; [reflexivity|exact B].
    Qed.
    Lemma offset_count_ok b nst dm q lev cnt acc : built k l d b cnt acc -> (0 < n_lists k)%nat ->
      offset_count (W b nst dm q lev) 1 = Ok (Z.of_nat (length (cnt 0%nat))).
    Proof.
      intros Hb Hi. unfold offset_count. cbn [W nw_builder]. destruct (count_buf b cnt acc 0%nat Hb Hi) as (c & Ec & Hc).
      change 1 with (Z.of_nat 1). rewrite Ec. cbn [obind]. rewrite Hc. f_equal. lia.
    Qed.

    (** ** Linestrings and multipoints *)
    Definition lined (b : builder) (cnt : nat -> list Z) (acc : list coord) : Prop :=
      built k l d b cnt acc /\ total (cnt 0%nat) = Z.of_nat (length acc).

    Lemma lined_push b cnt acc cs b' : lined b cnt acc -> built k l d b' (add_at 0 (Z.of_nat (length (acc ++ cs)) - total (cnt 0%nat)) cnt) (acc ++ cs) ->
      lined b' (plus cnt (at_level 0 [Z.of_nat (length cs)])) (acc ++ cs).
    Proof.
      intros (_ & Ht) Hb. rewrite app_length in Hb. split.
      - eapply built_ext; [exact Hb| |reflexivity]. intros i _. unfold plus. destruct i as [|i].
        + rewrite add_same, at_same. f_equal. f_equal. lia.
        + rewrite add_other, at_other, app_nil_r by discriminate. reflexivity.
      - unfold plus. rewrite at_same, total_app, app_length. cbn. lia.
    Qed.

    Definition line_state (D : Z -> Prop) (q : Z * Z * Z) (cnt : nat -> list Z) (acc : list coord) (n : Z) (seqs : list (list coord)) (w : nwriter) : Prop :=
      exists b nst dm s1, w = W b nst dm (Quad (n + Z.of_nat (length seqs)) s1 (snd (fst q)) (snd q)) 0 /\ nst <> 2 /\ D dm /\
        lined b (plus cnt (at_level 0 (lens seqs))) (acc ++ concat seqs).

    Lemma line_state_app D q cnt acc n s1 s2 w : line_state D q (plus cnt (at_level 0 (lens s1))) (acc ++ concat s1) (n + Z.of_nat (length s1)) s2 w ->
      line_state D q cnt acc n (s1 ++ s2) w.
    Proof.
      intros (b & nst & dm & s & -> & Hn & Hd & (Hb & Ht)). exists b, nst, dm, s. split; [rewrite app_length, Nat2Z.inj_add, Z.add_assoc; reflexivity|].
      split; [exact Hn|]. split; [exact Hd|]. split.
      - eapply built_ext; [exact Hb| |rewrite concat_app, app_assoc; reflexivity]. intros i _. unfold plus, at_level. destruct (Nat.eqb i 0).
        + unfold lens. rewrite map_app, app_assoc. reflexivity.
        + rewrite !app_nil_r. reflexivity.
      - rewrite concat_app, app_assoc. etransitivity; [|exact Ht]. unfold plus. rewrite !at_same. unfold lens. rewrite map_app, app_assoc. reflexivity.
    Qed.

    Hypothesis one_list : n_lists k = 1%nat.
    Notation lv := (linestring_visitor junk).

    Lemma lv_seq_end (D : Z -> Prop) b nst dm s0 s1 s2 s3 cnt acc cs lev e : lined b cnt acc ->
      forall b1, built k l d b1 cnt (acc ++ cs) -> nst <> 2 -> D dm ->
      (e = EGeomEnd /\ lev = 1 \/ e = ERingEnd /\ lev = 1) ->
      ends lv (W b1 nst dm (Quad s0 s1 s2 s3) lev) [e] (Z.of_nat (length (acc ++ cs))) (line_state D (0, s2, s3) cnt acc s0 [cs]).
    Proof.
      intros Hl b1 Hb1 Hn Hd He.
      assert (lv (W b1 nst dm (Quad s0 s1 s2 s3) lev) e = append_coord_offset junk (W b1 nst dm (Quad (s0 + 1) s1 s2 s3) 0) 0) as E.
      { destruct He as [(-> & ->)|(-> & ->)]; cbn [linestring_visitor W nw_nesting nw_level]; [|reflexivity].
        destruct (Z.eqb_spec nst 2); [contradiction|]. reflexivity. }
      unfold ends. cbn [feed]. rewrite E.
      pose proof (coord_offset_ok b1 nst dm (Quad (s0 + 1) s1 s2 s3) 0 cnt (acc ++ cs) 0 Hb1 ltac:(lia)) as H. change (Z.of_nat 0) with 0 in H.
      destruct (Z.ltb_spec int32_max (Z.of_nat (length (acc ++ cs)))) as [Hgt|Hle].
      - rewrite H. change (EOVERFLOW =? 0) with false. cbn iota. eexists _, _. split; [reflexivity|]. right. auto.
      - destruct H as (b2 & E2 & B2). rewrite E2. change (0 =? 0) with true. cbn iota. eexists _, _. split; [reflexivity|]. left. split; [exact Hle|]. split; [reflexivity|].
        exists b2, nst, dm, s1. cbn [snd fst length]. split; [reflexivity|]. split; [exact Hn|]. split; [exact Hd|].
        cbn [concat]. rewrite app_nil_r. exact (lined_push b cnt acc cs b2 Hl B2).
    Qed.

    Lemma line_state_nil (D : Z -> Prop) q0 b nst dm s0 s1 s2 s3 cnt acc : lined b cnt acc -> nst <> 2 -> D dm -> line_state D (q0, s2, s3) cnt acc s0 [] (W b nst dm (Quad s0 s1 s2 s3) 0).
    Proof.
      intros (Hb & Ht) Hn Hd. exists b, nst, dm, s1. cbn [length snd fst]. rewrite Z.add_0_r. split; [reflexivity|]. split; [exact Hn|]. split; [exact Hd|]. cbn [concat]. rewrite app_nil_r.
      split; [|unfold plus; rewrite at_same, app_nil_r; exact Ht]. eapply built_ext; [exact Hb| |reflexivity]. intros i _. unfold plus, at_level. destruct (Nat.eqb i 0); rewrite app_nil_r; reflexivity.
    Qed.
    Lemma line_state_impl (D D' : Z -> Prop) q cnt acc n seqs w : (forall x, D x -> D' x) -> line_state D q cnt acc n seqs w -> line_state D' q cnt acc n seqs w.
    Proof. intros H (b & nst & dm & s1 & E & Hn & Hd & Hl). exists b, nst, dm, s1. auto. Qed.

    Lemma lv_coords w n cs : lv w (ECoords n cs) = visit_coords junk (add_size w 1 (Z.of_nat (length cs))) n cs.
    Proof. reflexivity. Qed.

    (** A sequence and the event that ends it. *)
    Lemma lv_seq (D : Z -> Prop) s cs evs e b nst s0 s1 s2 s3 cnt acc : seq_events s cs evs -> wf_seq s cs -> lined b cnt acc -> nst <> 2 -> D (dim_code s) ->
      e = EGeomEnd \/ e = ERingEnd ->
      ends lv (W b nst (dim_code s) (Quad s0 s1 s2 s3) 1) (evs ++ [e]) (Z.of_nat (length acc) + Z.of_nat (length cs)) (line_state D (0, s2, s3) cnt acc s0 [map (convert_coord s d) cs]).
    Proof.
      intros Hev Hw Hl Hn Hd He. destruct (seq_ok lv 1 ltac:(lia) lv_coords s cs evs Hev Hw b nst (Quad s0 s1 s2 s3) 1 cnt acc (proj1 Hl)) as (b1 & E1 & B1).
      eapply ends_pre; [exact E1|]. cbn [qadd qget qset q1].
      assert (Z.of_nat (length (acc ++ map (convert_coord s d) cs)) = Z.of_nat (length acc) + Z.of_nat (length cs)) as <- by apply len_conv.
      eapply lv_seq_end; eauto. destruct He; auto.
    Qed.

    Lemma lv_rings s rings : Forall (wf_seq s) rings -> forall evs, ring_events s rings evs ->
      forall b nst s0 s1 s2 s3 cnt acc, lined b cnt acc -> nst <> 2 -> Z.of_nat (length acc) <= int32_max ->
      ends lv (W b nst (dim_code s) (Quad s0 s1 s2 s3) 0) evs (Z.of_nat (length acc) + Z.of_nat (length (concat rings)))
        (line_state (fun x => x = dim_code s) (0, s2, s3) cnt acc s0 (map (map (convert_coord s d)) rings)).
    Proof.
      intros Hw. induction rings as [|cs rings IH]; intros evs He b nst s0 s1 s2 s3 cnt acc Hl Hn Hm; inversion He as [|? ? e1 e2 He1 He2]; subst.
      - eapply ends_ok; [reflexivity|cbn; lia|]. apply line_state_nil; auto.
      - apply Forall_cons_iff in Hw. destruct Hw as (Hw1 & Hw2). change (ERingStart :: e1 ++ [ERingEnd] ++ e2) with ([ERingStart] ++ (e1 ++ ([ERingEnd] ++ e2))).
        rewrite (app_assoc e1). eapply ends_pre; [reflexivity|]. cbn [with_nw_level with_state W nw_builder nw_validity nw_null_count nw_length nw_last nw_is_null nw_nesting nw_dims nw_size nw_level].
        change (NWriter b bm nc len last null nst (dim_code s) (Quad s0 s1 s2 s3) (0 + 1)) with (W b nst (dim_code s) (Quad s0 s1 s2 s3) 1).
        eapply ends_app; [eapply (lv_seq (fun x => x = dim_code s)); eauto|cbn [concat]; rewrite len_app; lia|].
        intros Hle w' (b' & nst' & dm' & s1' & -> & Hn' & -> & Hl'). cbn [map snd fst length] in *. cbn [concat] in *.
        eapply ends_impl; [|intros w' H; apply (line_state_app _ _ cnt acc s0 [map (convert_coord s d) cs]); exact H].
        replace (Z.of_nat (length acc) + Z.of_nat (length (cs ++ concat rings))) with
          (Z.of_nat (length (acc ++ concat [map (convert_coord s d) cs])) + Z.of_nat (length (concat rings))) by (cbn [concat]; rewrite app_nil_r, len_conv, len_app; lia).
        eapply IH; eauto. cbn [concat]. rewrite app_nil_r, len_conv. lia.
    Qed.

    Lemma lv_points parts : Forall is_point parts -> wf_geoms parts -> forall evs, parts_events parts evs ->
      forall b dm s0 s1 s2 s3 cnt acc, built k l d b cnt acc -> seen_dims dm ->
      exists b' dm' s1', feed lv (W b 1 dm (Quad s0 s1 s2 s3) 1) evs = Some (W b' 1 dm' (Quad s0 s1' s2 s3) 1, 0) /\ seen_dims dm' /\
        built k l d b' cnt (acc ++ flat_map (all_coords d) parts).
    Proof.
      induction parts as [|p parts IH]; intros Hp Hw evs He b dm s0 s1 s2 s3 cnt acc Hb Hd; inversion He as [|? ? e1 e2 He1 He2]; subst.
      - exists b, dm, s1. cbn [feed flat_map]. rewrite app_nil_r. auto.
      - apply Forall_cons_iff in Hp. destruct Hp as (Hp1 & Hp2). inversion Hw as [|? ? Hw1 Hw2]; subst. destruct p as [s cs| | |]; try contradiction.
        inversion He1 as [? ? e He1'| | |]; subst. inversion Hw1 as [? ? Hw1' _| | |]; subst. rewrite <- !app_assoc.
        destruct (seq_ok lv 1 ltac:(lia) lv_coords s cs e He1' Hw1' b 2 (Quad s0 s1 s2 s3) 1 cnt acc Hb) as (b1 & E1 & B1).
        cbn [app]. erewrite feed_cons_ok; [|cbn [linestring_visitor]; rewrite dims_code; reflexivity]. cbn [W nw_nesting nw_builder nw_validity nw_null_count nw_length nw_last nw_is_null nw_dims nw_size nw_level].
        change (feed lv (W b 2 (dim_code s) (Quad s0 s1 s2 s3) 1) (e ++ EGeomEnd :: e2)) with (feed lv (W b 2 (dim_code s) (Quad s0 s1 s2 s3) 1) (e ++ EGeomEnd :: e2)).
        rewrite (feed_app_ok _ _ _ _ _ E1). erewrite feed_cons_ok by reflexivity.
        destruct (IH Hp2 Hw2 e2 He2 b1 (dim_code s) s0 (s1 + Z.of_nat (length cs)) s2 s3 cnt _ B1 (seen_dim s)) as (b2 & dm2 & s2' & E2 & D2 & B2).
        exists b2, dm2, s2'. split; [exact E2|]. split; [exact D2|]. cbn [flat_map]. rewrite app_assoc. unfold all_coords at 1. cbn [geom_coords]. rewrite map_map. exact B2.
    Qed.
    Lemma lv_geom g : made_of (fun g => is_line g \/ is_poly g \/ multi_of CMultipoint is_point g) (fun c => c <> CMultipoint) g -> wf_geom g ->
      forall evs, geom_events g evs -> forall b nst dm s0 s1 s2 s3 cnt acc, lined b cnt acc -> nst <> 2 -> seen_dims dm -> Z.of_nat (length acc) <= int32_max ->
      ends lv (W b nst dm (Quad s0 s1 s2 s3) 0) evs (Z.of_nat (length acc) + Z.of_nat (length (concat (sequences d g))))
        (line_state seen_dims (0, s2, s3) cnt acc s0 (sequences d g)).
    Proof.
      induction 1 as [g Hleaf|c s parts Hc Hparts IH]; intros Hw evs He b nst dm s0 s1 s2 s3 cnt acc Hl Hn Hd Hm.
      - destruct Hleaf as [H|[H|H]].
        + destruct g as [|s cs| |]; try contradiction H. inversion He as [|? ? e He1| |]; subst. inversion Hw as [|? ? Hw1| |]; subst.
          cbn [app]. eapply ends_cons; [cbn [linestring_visitor]; rewrite dims_code; reflexivity|]. cbn [sequences concat]. rewrite app_nil_r. rewrite map_length.
          apply (lv_seq seen_dims s cs e EGeomEnd); auto. apply seen_dim.
        + destruct g as [| |s rings|]; try contradiction H. inversion He as [| |? ? e He1|]; subst. inversion Hw as [| |? ? Hw1|]; subst.
          cbn [app]. eapply ends_cons; [cbn [linestring_visitor]; rewrite dims_code; reflexivity|]. rewrite len_rings.
          eapply ends_app; [eapply lv_rings; eauto|apply Z.le_refl|]. intros Hle w' (b' & nst' & dm' & s1' & -> & Hn' & -> & Hl'). cbn [snd fst] in *.
          eapply ends_ok; [cbn [feed linestring_visitor W nw_nesting nw_level]; destruct (Z.eqb_spec nst' 2); [contradiction|]; reflexivity|exact Hle|].
          exists b', nst', (dim_code s), s1'. split; [reflexivity|]. split; [exact Hn'|]. split; [apply seen_dim|exact Hl'].
        + destruct g as [| | |c s parts]; try contradiction H. destruct H as (<- & Hp). inversion He as [| | |? ? ? e He1]; subst. inversion Hw as [| | |? ? ? Hw1]; subst.
          cbn [app]. eapply ends_cons; [cbn [linestring_visitor coll_code]; rewrite dims_code; reflexivity|].
          destruct (lv_points parts Hp Hw1 e He1 b (dim_code s) s0 s1 s2 s3 cnt acc (proj1 Hl) (seen_dim s)) as (b' & dm' & s1' & E & D' & B').
          eapply ends_pre; [exact E|]. cbn [sequences concat]. rewrite app_nil_r, <- len_app. rewrite <- all_coords_coll with (c := CMultipoint) (s := s) in B'.
          eapply lv_seq_end; eauto; lia.
      - inversion He as [| | |? ? ? e He1]; subst. inversion Hw as [| | |? ? ? Hw1]; subst.
        rewrite sequences_coll by exact Hc.
        assert (forall dm0, seen_dims dm0 -> ends lv (W b nst dm0 (Quad s0 s1 s2 s3) 0) e (Z.of_nat (length acc) + Z.of_nat (length (concat (flat_map (sequences d) parts))))
          (line_state seen_dims (0, s2, s3) cnt acc s0 (flat_map (sequences d) parts))) as Hgo.
        { clear He dm Hd Hw Hparts. revert e He1 b nst s0 s1 cnt acc Hl Hn Hm. induction parts as [|p parts IHp]; intros e He1 b nst s0 s1 cnt acc Hl Hn Hm dm Hd;
            inversion He1 as [|? ? e1 e2 He1a He1b]; subst.
          - eapply ends_ok; [reflexivity|cbn; lia|]. apply line_state_nil; auto.
          - inversion Hw1 as [|? ? Hw1a Hw1b]; subst. cbn [flat_map]. rewrite concat_app.
            eapply ends_app; [apply (IH p (or_introl eq_refl) Hw1a e1 He1a b nst dm s0 s1 s2 s3 cnt acc Hl Hn Hd Hm)|rewrite len_app; lia|].
            intros Hle w' (b' & nst' & dm' & s1' & -> & Hn' & Hd' & Hl'). cbn [snd fst] in *.
            eapply ends_impl; [|intros w' H; apply line_state_app; exact H].
            rewrite len_app. rewrite Z.add_assoc, <- (len_app acc).
            apply IHp; auto.
            + intros q Hq. apply IH. right. exact Hq.
            + rewrite len_app. exact Hle. }
        cbn [app]. eapply ends_cons.
        { assert (Z.of_N (coll_code c) =? GT_LINESTRING = false /\ Z.of_N (coll_code c) =? GT_MULTIPOINT = false /\ Z.of_N (coll_code c) =? GT_POINT = false) as (K1 & K2 & K3)
            by (destruct c; [contradiction| | |]; auto).
          cbn [linestring_visitor]. rewrite K1, K2, K3, dims_code. reflexivity. }
        eapply ends_app; [apply Hgo; apply seen_dim|lia|]. intros Hle w' (b' & nst' & dm' & s1' & -> & Hn' & Hd' & Hl'). cbn [snd fst] in *.
        eapply ends_ok; [cbn [feed linestring_visitor W nw_nesting nw_level]; destruct (Z.eqb_spec nst' 2); [contradiction|]; reflexivity|exact Hle|].
        exists b', nst', dm', s1'. auto.
    Qed.
  End Within.

  (** ** Whole features *)
  Record visiting (w : nwriter) (els : list (option (nest (n_lists k)))) : Prop := {
    vi_built : built k l d (nw_builder w) (counts (n_lists k) (map (element k d) els)) (leaves (n_lists k) (map (element k d) els));
    vi_nulls : nw_null_count w = nulls (map is_valid els);
    vi_bits : bstate (nw_validity w) (map is_valid els);
    vi_dims : seen_dims (nw_dims w)
  }.

  Lemma holding_visiting w els : holding k l d w els -> seen_dims (nw_dims w) -> visiting w els.
  Proof. intros [H1 H2 H3 H4] Hd. constructor; auto. apply H1. Qed.

  Lemma counts_length n : forall xs i, i = 0%nat -> (0 < n)%nat -> length (counts n xs i) = length xs.
  Proof. intros xs i -> H. destruct n; [lia|]. cbn [counts]. apply map_length. Qed.

  (** The last step of a feature. *)
  Lemma feature_bit bm nc len last b nst dm q lev els e cnt acc n : bstate bm (map is_valid els) -> nc = nulls (map is_valid els) -> seen_dims dm ->
    built k l d b cnt acc -> (forall i, (i < n_lists k)%nat -> cnt i = counts (n_lists k) (map (element k d) (els ++ [e])) i) ->
    acc = leaves (n_lists k) (map (element k d) (els ++ [e])) -> n = Z.of_nat (length els) + 1 ->
    exists w', append_bit junk (W bm nc len last (negb (is_valid e)) b nst dm q lev) (negb (negb (is_valid e))) n = VRet w' 0 /\ visiting w' (els ++ [e]).
  Proof.
    intros Hbm -> Hd Hb Hcnt -> ->.
    destruct (append_bit_ok junk junk_bytes (W bm (nulls (map is_valid els)) len last (negb (is_valid e)) b nst dm q lev) (negb (negb (is_valid e)))
                (Z.of_nat (length els) + 1) (map is_valid els) Hbm) as (bm' & E & B).
    { rewrite map_length. reflexivity. }
    rewrite E. eexists. split; [reflexivity|]. rewrite negb_involutive in *. constructor; cbn [nw_builder nw_null_count nw_validity nw_dims with_nulls W].
    - eapply built_ext; [exact Hb|exact Hcnt|reflexivity].
    - rewrite map_app, nulls_app. reflexivity.
    - rewrite map_app. exact B.
    - exact Hd.
  Qed.
  Lemma feature_bit_lists bm nc len last b nst dm q lev els e cnt acc : (0 < n_lists k)%nat -> bstate bm (map is_valid els) -> nc = nulls (map is_valid els) -> seen_dims dm ->
    built k l d b cnt acc -> (forall i, (i < n_lists k)%nat -> cnt i = counts (n_lists k) (map (element k d) (els ++ [e])) i) ->
    acc = leaves (n_lists k) (map (element k d) (els ++ [e])) ->
    exists w', append_feature_bit junk (W bm nc len last (negb (is_valid e)) b nst dm q lev) = VRet w' 0 /\ visiting w' (els ++ [e]).
  Proof.
    intros Hk Hbm Hnc Hd Hb Hcnt Hacc. unfold append_feature_bit. rewrite (offset_count_ok bm nc len last _ b nst dm q lev cnt acc Hb Hk).
    cbn [nw_is_null W]. eapply feature_bit; eauto. rewrite Hcnt by exact Hk. rewrite counts_length by (auto; exact Hk). rewrite map_length, app_length. cbn [length]. lia.
  Qed.

  (** The state after feat_start (and null_feat). *)
  Lemma lines_els els e x : n_lists k = 1%nat -> element k d e = x -> forall cnt acc, cnt 0%nat = counts (n_lists k) (map (element k d) els) 0%nat ++ counts (n_lists k) [x] 0%nat ->
    acc = leaves (n_lists k) (map (element k d) els) ++ leaves (n_lists k) [x] ->
    (forall i, (i < n_lists k)%nat -> cnt i = counts (n_lists k) (map (element k d) (els ++ [e])) i) /\ acc = leaves (n_lists k) (map (element k d) (els ++ [e])).
  Proof.
    intros H1 <- cnt acc Hc Ha. rewrite map_app. cbn [map]. split.
    - intros i Hi. assert (i = 0)%nat as -> by lia. rewrite counts_app. exact Hc.
    - rewrite leaves_app. exact Ha.
  Qed.
End Visit.
