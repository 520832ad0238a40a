(** * Sequences delivered to a writer of polygons, multilinestrings or multipolygons *)
From Verif Require Import Base BaseFacts TypesModel GeomSpec VisitorModel VisitorSpec VisitorFacts BufferModel BufferFacts CoordsModel BitmapModel BitmapSpec BitmapProofs
  ArrowModel ArrayViewModel NativeSpec NativeProofs GeomFacts NodesModel NodesSpec CopyCoordsModel CopyCoordsSpec CopyCoordsProofs
  BuilderModel BuilderSpec BuilderRun BuilderFacts BuilderCoords BuilderAppend BuilderFinish BuilderProofs
  NativeWriterModel NativeWriterSpec NativeWriterFacts NativeWriterAppend NativeWriterGeom NativeWriterArray NativeWriterFinish NativeWriterRun
  NativeWriterProofs NativeWriterHistory NativeVisitorSpec NativeVisitorProofs.
Local Open Scope Z_scope.

(** Members [j] and [j + 1] of the sizes. *)
Definition sq (q : quad Z) (j : nat) (m x : Z) : quad Z := qset (qset q j m) (S j) x.

Notation keep := (filter nonempty).
Lemma keep_one {A} (cs : list A) : keep [cs] = if 0 <? Z.of_nat (length cs) then [cs] else [].
Proof. destruct cs; reflexivity. Qed.
Lemma keep_map {A B} (f : A -> B) xs : keep (map (map f) xs) = map (map f) (keep xs).
Proof. induction xs as [|[|x xs] r IH]; [reflexivity|exact IH|]. cbn. f_equal. exact IH. Qed.
Lemma keep_length {A} (xs : list (list A)) : (length (keep xs) <= length (concat xs))%nat.
Proof. induction xs as [|[|x xs] r IH]; [apply Nat.le_refl|exact IH|]. cbn. rewrite app_length. cbn in IH. lia. Qed.

Section Junk.
  Variable junk : nat -> nat -> N.
  Hypothesis junk_bytes : forall i j, is_byte (junk i j).
  Variables (k : geometry_kind) (l : layout) (d : dim).
  Hypothesis not_box : k <> KBox.
  Variables (v : visitor nwriter) (j : nat).
  Hypothesis j_small : (j < 2)%nat.
  Hypothesis lists : n_lists k = S (S j).
  Hypothesis v_coords : forall w n cs, v w (ECoords n cs) = visit_coords junk (add_size w (S j) (Z.of_nat (length cs))) n cs.
  Hypothesis v_ring_start : forall w, v w ERingStart = VRet (with_nw_level w (nw_level w + 1)) 0.
  Hypothesis v_ring_end : forall w, v w ERingEnd = end_sequence junk (with_nw_level w (nw_level w - 1)) j.
  Variables (bm : bitmap) (nc len : Z) (last : quad Z) (null : bool) (nst : Z).
  Notation W := (NativeVisitorProofs.W bm nc len last null).

  Lemma sq_size b dm q m x lev : size_at (W b nst dm (sq q j m x) lev) (S j) = x.
  Proof. clear -j_small. destruct j as [|[|?]]; [| |lia]; destruct q; reflexivity. Qed.
  Lemma sq_add q m x y : qadd (sq q j m x) (S j) y = sq q j m (x + y).
  Proof. clear -j_small. destruct j as [|[|?]]; [| |lia]; destruct q; reflexivity. Qed.
  Lemma sq_end b dm q m x lev : zero_size (add_size (W b nst dm (sq q j m x) lev) j 1) (S j) = W b nst dm (sq q j (m + 1) 0) lev.
  Proof. clear -j_small. destruct j as [|[|?]]; [| |lia]; destruct q; reflexivity. Qed.

  (** All coordinates are in sequences. *)
  Definition closed (b : builder) (cnt : nat -> list Z) (acc : list coord) : Prop :=
    built k l d b cnt acc /\ total (cnt (S j)) = Z.of_nat (length acc).

  Lemma closed_push b cnt acc cs b' : closed b cnt acc -> built k l d b' (add_at (S j) (Z.of_nat (length (acc ++ cs)) - total (cnt (S j))) cnt) (acc ++ cs) ->
    closed b' (plus cnt (at_level (S j) [Z.of_nat (length cs)])) (acc ++ cs).
  Proof.
    intros (_ & Ht) Hb. rewrite app_length in Hb. split.
    - eapply built_ext; [exact Hb| |reflexivity]. intros i _. unfold plus. destruct (Nat.eq_dec (S j) i) as [<-|Hi].
      + rewrite add_same, at_same. f_equal. f_equal. lia.
      + rewrite add_other, at_other, app_nil_r by exact Hi. reflexivity.
    - unfold plus. rewrite at_same, total_app, app_length. cbn. lia.
  Qed.

  Lemma at_nil (cnt : nat -> list Z) i n : plus cnt (at_level n []) i = cnt i.
  Proof. unfold plus, at_level. destruct (Nat.eqb i n); apply app_nil_r. Qed.

  Lemma closed_nil b cnt acc : closed b cnt acc -> closed b (plus cnt (at_level (S j) (lens (@nil (list coord))))) (acc ++ concat []).
  Proof.
    intros (Hb & Ht). cbn [concat]. rewrite app_nil_r. split; [|rewrite at_nil; exact Ht].
    eapply built_ext; [exact Hb| |reflexivity]. intros i _. rewrite at_nil. reflexivity.
  Qed.

  Lemma closed_app b cnt acc s1 s2 : closed b (plus (plus cnt (at_level (S j) (lens (keep s1)))) (at_level (S j) (lens (keep s2)))) ((acc ++ concat s1) ++ concat s2) ->
    closed b (plus cnt (at_level (S j) (lens (keep (s1 ++ s2))))) (acc ++ concat (s1 ++ s2)).
  Proof.
    intros (Hb & Ht). rewrite concat_app, app_assoc. split.
    - eapply built_ext; [exact Hb| |reflexivity]. intros i _. rewrite filter_app. unfold plus, at_level, lens. rewrite map_app. destruct (Nat.eqb i (S j)).
      + rewrite app_assoc. reflexivity.
      + rewrite !app_nil_r. reflexivity.
    - etransitivity; [|exact Ht]. unfold plus. rewrite !at_same, filter_app. unfold lens. rewrite map_app, app_assoc. reflexivity.
  Qed.

  (** The end of a sequence. *)
  Lemma end_sequence_ok b cnt acc cs b1 dm q m lev : closed b cnt acc -> built k l d b1 cnt (acc ++ cs) -> Z.of_nat (length acc) <= int32_max ->
    if int32_max <? Z.of_nat (length (acc ++ cs)) then exists w', end_sequence junk (W b1 nst dm (sq q j m (Z.of_nat (length cs))) lev) j = VRet w' EOVERFLOW
    else exists b', end_sequence junk (W b1 nst dm (sq q j m (Z.of_nat (length cs))) lev) j = VRet (W b' nst dm (sq q j (m + Z.of_nat (length (keep [cs]))) 0) lev) 0 /\
           closed b' (plus cnt (at_level (S j) (lens (keep [cs])))) (acc ++ cs).
  Proof.
    intros Hc Hb1 Hm. unfold end_sequence. rewrite sq_size, keep_one. destruct (Z.ltb_spec 0 (Z.of_nat (length cs))) as [Hpos|Hzero].
    - pose proof (coord_offset_ok junk junk_bytes k l d bm nc len last null b1 nst dm (sq q j m (Z.of_nat (length cs))) lev cnt (acc ++ cs) (S j) Hb1 ltac:(rewrite lists; lia)) as H.
      destruct (Z.ltb_spec int32_max (Z.of_nat (length (acc ++ cs)))) as [Hgt|Hle].
      + rewrite H. cbn [wthen]. change (EOVERFLOW =? 0) with false. cbn iota. eauto.
      + destruct H as (b2 & E2 & B2). rewrite E2. cbn [wthen]. change (0 =? 0) with true. cbn iota. rewrite sq_end. exists b2. split; [reflexivity|].
        exact (closed_push b cnt acc cs b2 Hc B2).
    - destruct cs as [|c cs]; [|cbn [length] in Hzero; lia]. rewrite app_nil_r in *. destruct (Z.ltb_spec int32_max (Z.of_nat (length acc))); [lia|].
      cbn [length]. rewrite Z.add_0_r. exists b1. split; [reflexivity|]. destruct Hc as (_ & Ht). pose proof (closed_nil b1 cnt acc (conj Hb1 Ht)) as H0.
      cbn [concat] in H0. rewrite app_nil_r in H0. exact H0.
  Qed.

  Definition seq_state (D : Z -> Prop) (q : quad Z) (m lev : Z) (cnt : nat -> list Z) (acc : list coord) (seqs : list (list coord)) (w : nwriter) : Prop :=
    exists b dm, w = W b nst dm (sq q j (m + Z.of_nat (length (keep seqs))) 0) lev /\ D dm /\
      closed b (plus cnt (at_level (S j) (lens (keep seqs)))) (acc ++ concat seqs).

  Lemma seq_state_app D q m lev cnt acc s1 s2 w : seq_state D q (m + Z.of_nat (length (keep s1))) lev (plus cnt (at_level (S j) (lens (keep s1)))) (acc ++ concat s1) s2 w ->
    seq_state D q m lev cnt acc (s1 ++ s2) w.
  Proof.
    intros (b & dm & -> & Hd & Hc). exists b, dm. split; [|split; [exact Hd|apply closed_app; exact Hc]].
    rewrite filter_app, app_length, Nat2Z.inj_add, Z.add_assoc. reflexivity.
  Qed.
  Lemma seq_state_nil (D : Z -> Prop) q m lev b dm cnt acc : closed b cnt acc -> D dm -> seq_state D q m lev cnt acc [] (W b nst dm (sq q j m 0) lev).
  Proof.
    intros Hc Hd. exists b, dm. cbn [filter length]. rewrite Z.add_0_r. split; [reflexivity|]. split; [exact Hd|]. apply closed_nil. exact Hc.
  Qed.
  Lemma seq_state_impl (D D' : Z -> Prop) q m lev cnt acc seqs w : (forall x, D x -> D' x) -> seq_state D q m lev cnt acc seqs w -> seq_state D' q m lev cnt acc seqs w.
  Proof. intros H (b & dm & E & Hd & Hc). exists b, dm. auto. Qed.

  (** A sequence and the event that ends it. *)
  Lemma seq_closed (D : Z -> Prop) s cs evs e b q m lev lev' cnt acc : seq_events s cs evs -> wf_seq s cs -> closed b cnt acc -> Z.of_nat (length acc) <= int32_max -> D (dim_code s) ->
    (forall b dm q, v (W b nst dm q lev') e = end_sequence junk (W b nst dm q lev) j) ->
    ends v (W b nst (dim_code s) (sq q j m 0) lev') (evs ++ [e]) (Z.of_nat (length acc) + Z.of_nat (length cs)) (seq_state D q m lev cnt acc [map (convert_coord s d) cs]).
  Proof.
    intros Hev Hw Hc Hm Hd He.
    destruct (seq_ok junk junk_bytes k l d not_box bm nc len last null v (S j) ltac:(lia) v_coords s cs evs Hev Hw b nst (sq q j m 0) lev' cnt acc (proj1 Hc)) as (b1 & E1 & B1).
    eapply ends_pre; [exact E1|]. rewrite sq_add, Z.add_0_l. unfold ends. cbn [feed]. rewrite He.
    pose proof (end_sequence_ok b cnt acc (map (convert_coord s d) cs) b1 (dim_code s) q m lev Hc B1 Hm) as H. rewrite map_length in H. rewrite len_conv in H. change (@length (list N) cs) with (@length coord cs) in H.
    destruct (Z.ltb_spec int32_max (Z.of_nat (length acc) + Z.of_nat (length cs))) as [Hgt|Hle].
    - destruct H as (w' & E). rewrite E. change (EOVERFLOW =? 0) with false. cbn iota. eexists _, _. split; [reflexivity|]. right. auto.
    - destruct H as (b2 & E2 & C2). rewrite E2. change (0 =? 0) with true. cbn iota. eexists _, _. split; [reflexivity|]. left. split; [exact Hle|]. split; [reflexivity|].
      exists b2, (dim_code s). split; [reflexivity|]. split; [exact Hd|]. cbn [concat]. rewrite app_nil_r. exact C2.
  Qed.

  Lemma rings_closed s rings lev : Forall (wf_seq s) rings -> forall evs, ring_events s rings evs ->
    forall b q m cnt acc, closed b cnt acc -> Z.of_nat (length acc) <= int32_max ->
    ends v (W b nst (dim_code s) (sq q j m 0) lev) evs (Z.of_nat (length acc) + Z.of_nat (length (concat rings)))
      (seq_state (fun x => x = dim_code s) q m lev cnt acc (map (map (convert_coord s d)) rings)).
  Proof.
    intros Hw. induction rings as [|cs rings IH]; intros evs He b q m cnt acc Hc Hm; inversion He as [|? ? e1 e2 He1 He2]; subst.
    - eapply ends_ok; [reflexivity|cbn; lia|]. apply seq_state_nil; auto.
    - apply Forall_cons_iff in Hw. destruct Hw as (Hw1 & Hw2). change (ERingStart :: e1 ++ [ERingEnd] ++ e2) with ([ERingStart] ++ (e1 ++ ([ERingEnd] ++ e2))).
      rewrite (app_assoc e1). eapply ends_pre; [cbn [feed]; rewrite v_ring_start; reflexivity|].
      change (with_nw_level (W b nst (dim_code s) (sq q j m 0) lev) (nw_level (W b nst (dim_code s) (sq q j m 0) lev) + 1)) with (W b nst (dim_code s) (sq q j m 0) (lev + 1)).
      eapply ends_app; [eapply (seq_closed (fun x => x = dim_code s)) with (lev := lev); eauto|cbn [concat]; rewrite len_app; lia|].
      { intros b0 dm0 q0. rewrite v_ring_end.
        change (with_nw_level (W b0 nst dm0 q0 (lev + 1)) (nw_level (W b0 nst dm0 q0 (lev + 1)) - 1)) with (W b0 nst dm0 q0 (lev + 1 - 1)). f_equal. f_equal. lia. }
      intros Hle w' (b' & dm' & -> & -> & Hc'). cbn [concat] in *.
      eapply ends_impl; [|intros w' H; apply (seq_state_app _ q m lev cnt acc [map (convert_coord s d) cs]); exact H].
      replace (Z.of_nat (length acc) + Z.of_nat (length (cs ++ concat rings))) with
        (Z.of_nat (length (acc ++ concat [map (convert_coord s d) cs])) + Z.of_nat (length (concat rings))) by (cbn [concat]; rewrite app_nil_r, len_conv, len_app; lia).
      eapply IH; eauto. cbn [concat]. rewrite app_nil_r, len_conv. lia.
  Qed.
End Junk.
