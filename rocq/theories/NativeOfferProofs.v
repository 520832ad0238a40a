(** * Proofs about offers to native arrays *)
From Verif Require Import Base Text TypesModel GeomSpec VisitorModel ArrowModel NativeSpec NodesModel NodesSpec CopyCoordsModel CopyCoordsSpec
  BuilderModel BuilderSpec BuilderRun BuilderFacts BuilderAppend NativeWriterModel NativeWriterSpec NativeWriterFacts NativeWriterAppend NativeWriterGeom NativeWriterArray NativeWriterFinish NativeWriterRun
  NativeWriterProofs NativeWriterHistory NativeRoundTripSpec NativeRoundTrip NativeOfferModel NativeOfferSpec.
Local Open Scope Z_scope.

Local Ltac another T :=
  match type of T with takes ?k ?array ?names =>
    match goal with |- exists text, _ = Some text /\ reason _ ?g text =>
      exists ($"Can't append " ++ name_of g ++ $" to array of type " ++ array);
      split; [reflexivity|eapply (another_kind k array names g); [exact T|vm_compute; intros H; repeat destruct H as [H|H]; try discriminate H; exact H]]
    end
  end.

Lemma refusal_ok k d m nodes g : k <> KBox -> item_ok d m nodes g -> proper g -> store k d g = None ->
  exists root r text, nodes = root :: r /\ refusal (geometry_kind_code k) root (N.of_nat (length (geom_coords g))) = Some text /\ reason k g text.
Proof.
  intros Hk Hi Hp Hx. pose proof Hi as [_ (lvl & R) Hwf _ Hc]. rewrite store_cases in Hx.
  destruct (geom_coords g) as [|c0 cs0] eqn:Eg; [discriminate|]. rewrite <- Eg in *.
  destruct (repr_root m lvl nodes g R) as (nd & r & -> & Hty). exists nd, r.
  enough (exists text, refusal (geometry_kind_code k) nd (N.of_nat (length (geom_coords g))) = Some text /\ reason k g text) as (text & E & H) by eauto.
  unfold refusal. cbv zeta. rewrite Hty.
  destruct k; try contradiction; cbn [geometry_kind_code store_full] in *.
  - change (1 =? GT_POINT) with true. cbn iota. destruct (N.ltb_spec 1 (N.of_nat (length (geom_coords g)))) as [Hl|Hle].
    + eexists. split; [reflexivity|]. constructor. lia.
    + exfalso. unfold all_coords in Hx. destruct (geom_coords g) as [|? [|]]; cbn in *; try discriminate; lia.
  - change (2 =? GT_POINT) with false. change (2 =? GT_LINESTRING) with true. cbn iota.
    destruct g as [| | |[] dd parts]; try discriminate Hx; try (another lines).
    change (Z.of_N (geom_code (GColl CMultilinestring dd parts)) =? GT_LINESTRING) with false.
    change (Z.of_N (geom_code (GColl CMultilinestring dd parts)) =? GT_MULTILINESTRING) with true. cbn iota.
    inversion R as [| | |? ? ? ? ? ? [Hn1 Hn2 Hn3 Hn4] Hr]; subst. rewrite Hn4.
    destruct parts as [|p [|p2 ps]]; [discriminate Eg| |].
    + cbn [proper] in Hp. apply Forall_inv in Hp. destruct p; try contradiction. discriminate Hx.
    + cbn [length]. destruct (N.ltb_spec 1 (N.of_nat (S (S (length ps))))); [|lia]. eexists. split; [reflexivity|]. constructor. cbn [length]. lia.
  - change (3 =? GT_POINT) with false. change (3 =? GT_LINESTRING) with false. change (3 =? GT_POLYGON) with true. cbn iota.
    destruct g as [| | |[] dd parts]; try discriminate Hx; try (another polygons).
    change (Z.of_N (geom_code (GColl CMultipolygon dd parts)) =? GT_POLYGON) with false.
    change (Z.of_N (geom_code (GColl CMultipolygon dd parts)) =? GT_MULTIPOLYGON) with true. cbn iota.
    inversion R as [| | |? ? ? ? ? ? [Hn1 Hn2 Hn3 Hn4] Hr]; subst. rewrite Hn4.
    destruct parts as [|p [|p2 ps]]; [discriminate Eg| |].
    + cbn [proper] in Hp. apply Forall_inv in Hp. destruct p; try contradiction. discriminate Hx.
    + cbn [length]. destruct (N.ltb_spec 1 (N.of_nat (S (S (length ps))))); [|lia]. eexists. split; [reflexivity|]. constructor. cbn [length]. lia.
  - change (4 =? GT_POINT) with false. change (4 =? GT_LINESTRING) with false. change (4 =? GT_POLYGON) with false. change (4 =? GT_MULTIPOINT) with true. cbn iota.
    destruct g as [| | |[] dd parts]; try discriminate Hx; (another multipoints).
  - change (5 =? GT_POINT) with false. change (5 =? GT_LINESTRING) with false. change (5 =? GT_POLYGON) with false. change (5 =? GT_MULTIPOINT) with false.
    change (5 =? GT_MULTILINESTRING) with true. cbn iota.
    destruct g as [| | |[] dd parts]; try discriminate Hx; try (another multilines).
    exfalso. revert Hx. apply all_some_total. cbn [proper] in Hp. eapply Forall_impl; [|exact Hp]. intros [] Hq; try contradiction. discriminate.
  - change (6 =? GT_POINT) with false. change (6 =? GT_LINESTRING) with false. change (6 =? GT_POLYGON) with false. change (6 =? GT_MULTIPOINT) with false.
    change (6 =? GT_MULTILINESTRING) with false. change (6 =? GT_MULTIPOLYGON) with true. cbn iota.
    destruct g as [| | |[] dd parts]; try discriminate Hx; try (another multipolygons).
    exfalso. revert Hx. apply all_some_total. cbn [proper] in Hp. eapply Forall_impl; [|exact Hp]. intros [] Hq; try contradiction. discriminate.
Qed.

Section Junk.
  Variable junk : nat -> nat -> N.
  Hypothesis junk_bytes : forall i j, is_byte (junk i j).
  Variables (k : geometry_kind) (l : layout) (d : dim).
  Hypothesis not_box : k <> KBox.
  Notation type := (make_type (geometry_kind_code k) (dim_code d) (layout_code l)).
  Definition proper_if_any (g : option geom) : Prop := match g with Some g => proper g | None => True end.

  Lemma offer_ok w done i g : holding k l d w done -> denotes d i g -> proper_if_any g ->
    Forall (small (n_lists k)) (map (element k d) (left_of k d [g])) ->
    exists w' c, append_item junk w i = VRet w' c /\ holding k l d w' (done ++ left_of k d [g]) /\
      answered k d g (c, if c =? 0 then None else said w i c) (left_of k d [g]).
  Proof.
    intros Hw Hd Hp Hs. destruct i as [[m nodes]|], g as [g|]; try contradiction; cbn [append_item denotes proper_if_any left_of flat_map] in *; rewrite ?app_nil_r in *.
    - destruct (store k d g) as [x|] eqn:Ex.
      + cbn [map element] in Hs. apply Forall_inv in Hs. destruct (append_geom_ok junk junk_bytes k l d w done m nodes g x not_box Hw Hd Ex Hs) as (w' & E & H).
        exists w', 0. split; [exact E|]. split; [exact H|]. constructor. exact Ex.
      + exists w, EINVAL. split; [eapply append_rejected; eassumption|]. split; [rewrite app_nil_r; exact Hw|].
        destruct (refusal_ok k d m nodes g not_box Hd Hp Ex) as (root & r & text & -> & Er & Hr).
        change (EINVAL =? 0) with false. cbv iota. unfold said. change (EINVAL =? EOVERFLOW) with false. cbv iota zeta.
        rewrite (count_ok d m _ g Hd).
        destruct (cfg_init k l d _ not_box (bu_cfg _ _ _ _ _ _ (proj1 (ho_built _ _ _ _ _ Hw)))) as (_ & Hg & _). rewrite Hg.
        destruct (N.eqb_spec (N.of_nat (length (geom_coords g))) 0) as [H0|_].
        { exfalso. rewrite store_cases in Ex. destruct (geom_coords g); [discriminate Ex|]. cbn [length] in H0. lia. }
        rewrite Er. constructor; assumption.
    - destruct (append_null_ok junk junk_bytes k l d w done not_box Hw) as (w' & E & H). exists w', 0. split; [exact E|]. split; [exact H|]. constructor.
  Qed.

  Lemma left_of_cons g gs : left_of k d (g :: gs) = left_of k d [g] ++ left_of k d gs.
  Proof. unfold left_of. cbn [flat_map]. rewrite app_nil_r. reflexivity. Qed.

  Lemma offer_items_ok : forall items gs w done, holding k l d w done -> Forall2 (denotes d) items gs -> Forall proper_if_any gs ->
    Forall (small (n_lists k)) (map (element k d) (left_of k d gs)) ->
    exists w' answers, offer_items junk w items = Ok (w', answers) /\ holding k l d w' (done ++ left_of k d gs) /\ all_answered k d gs answers (left_of k d gs).
  Proof.
    induction items as [|i items IH]; intros gs w done Hw Hd Hp Hs; inversion Hd as [|? g ? gs' Hd1 Hd2]; subst; cbn [offer_items].
    - exists w, []. split; [reflexivity|]. cbn [left_of flat_map]. rewrite app_nil_r. split; [exact Hw|constructor].
    - rewrite left_of_cons in *. rewrite map_app in Hs. apply Forall_app in Hs as [Hs1 Hs2]. apply Forall_cons_iff in Hp as [Hp1 Hp2].
      destruct (offer_ok w done i g Hw Hd1 Hp1 Hs1) as (w1 & c & E1 & H1 & A1). rewrite E1.
      destruct (IH gs' w1 _ H1 Hd2 Hp2 Hs2) as (w2 & answers & E2 & H2 & A2). rewrite E2. cbn [obind].
      exists w2. eexists. split; [reflexivity|]. split; [rewrite app_assoc; exact H2|]. constructor; assumption.
  Qed.

  Lemma offer_arrays_ok : forall batches gss w, holding k l d w [] -> Forall2 (Forall2 (denotes d)) batches gss -> Forall (Forall proper_if_any) gss ->
    Forall (fun gs => total_small (n_lists k) (map (element k d) (left_of k d gs))) gss ->
    exists results, offer_arrays junk w batches = Ok results /\
      Forall2 (fun gs r => all_answered k d gs (fst r) (left_of k d gs) /\ reads_as k l d (shown k d (left_of k d gs)) (snd r)) gss results.
  Proof.
    induction batches as [|items batches IH]; intros gss w Hw Hd Hp Ht; inversion Hd as [|? gs ? gss' Hd1 Hd2]; subst; cbn [offer_arrays].
    - exists []. split; [reflexivity|constructor].
    - apply Forall_cons_iff in Hp as [Hp1 Hp2]. apply Forall_cons_iff in Ht as [Ht1 Ht2].
      destruct (offer_items_ok items gs w [] Hw Hd1 Hp1 (total_small_small _ _ Ht1)) as (w1 & answers & E1 & H1 & A1). rewrite E1. cbn [obind].
      destruct (writer_finish_ok junk junk_bytes k l d w1 _ not_box H1 Ht1) as (a & w2 & E2 & A2 & H2). rewrite E2. cbn [obind].
      destruct (IH gss' w2 H2 Hd2 Hp2 Ht2) as (results & E3 & A3). rewrite E3. cbn [obind].
      eexists. split; [reflexivity|]. constructor; [|exact A3]. split; [exact A1|]. cbn [snd]. apply array_reads; assumption.
  Qed.

  Lemma offers_ok batches gss : Forall2 (Forall2 (denotes d)) batches gss -> Forall (Forall proper_if_any) gss ->
    Forall (fun gs => total_small (n_lists k) (map (element k d) (left_of k d gs))) gss ->
    exists w results, writer_init junk type = Ok w /\ offer_arrays junk w batches = Ok results /\
      Forall2 (fun gs r => all_answered k d gs (fst r) (left_of k d gs) /\ reads_as k l d (shown k d (left_of k d gs)) (snd r)) gss results.
  Proof.
    intros H1 H2 H3. destruct (writer_init_ok junk junk_bytes k l d not_box) as (w & E & H).
    destruct (offer_arrays_ok batches gss w H H1 H2 H3) as (results & E2 & A). eauto.
  Qed.
End Junk.

(** ** A ring that is too long *)
Definition one_coord : mem := [empty_point_coords; flat_map (le_bytes 8) [1; 2]%N].
Definition poly_node : node :=
  {| nd_coords := qconst nan_ptr; nd_stride := qconst 0%Z; nd_size := 1; nd_type := 3; nd_dims := 1; nd_swap := false; nd_level := 0 |}%N.
(** The same coordinate again and again *)
Definition ring_node (n : N) : node :=
  {| nd_coords := Quad (1%nat, 0%Z) (1%nat, 8%Z) nan_ptr nan_ptr; nd_stride := qconst 0%Z; nd_size := n; nd_type := 2; nd_dims := 1; nd_swap := false; nd_level := 1 |}%N.
Definition still (n : nat) : geom := GPoly XY [repeat [1; 2]%N n].

Lemma still_ok n : Z.of_nat n < 2 ^ 32 -> item_ok XY one_coord [poly_node; ring_node (N.of_nat n)] (still n).
Proof.
  intros Hn. constructor.
  - reflexivity.
  - exists 0%N. unfold still. constructor; [constructor; reflexivity|]. constructor; [|constructor]. constructor; try reflexivity.
    + cbn [ring_node nd_size]. rewrite repeat_length. reflexivity.
    + intros i j c Hi Hj. apply nth_error_In in Hi. apply repeat_spec in Hi. subst c.
      cbn [ring_node nd_coords nd_stride] in *. destruct j as [|[|j]]; [| |cbn in Hj; lia]; (unfold node_ordinate; cbn -[Z.mul Z.of_nat]; rewrite ?Z.mul_0_r; reflexivity).
  - repeat constructor. apply Forall_forall. intros c I. apply repeat_spec in I. subst c. repeat constructor.
  - intros nd s [<-|[<-|[]]] H; discriminate H.
  - cbn [still geom_coords concat]. rewrite app_nil_r, map_length, repeat_length. exact Hn.
Qed.

(** A polygon of one coordinate is taken; one of 2^31 is not, but its number of rings stays in the array, which cannot be finished. *)
Lemma overflow_spoils n : Z.of_nat n = 2 ^ 31 -> exists w w' text,
  writer_init (fun _ _ => 0%N) (make_type (geometry_kind_code KPolygon) (dim_code XY) (layout_code Separate)) = Ok w /\
  offer_items (fun _ _ => 0%N) w [Some (one_coord, [poly_node; ring_node 1]); Some (one_coord, [poly_node; ring_node (N.of_nat n)])] =
    Ok (w', [(0, None); (EOVERFLOW, Some text)]) /\
  writer_finish (fun _ _ => 0%N) w' = Err EINVAL.
Proof.
  intros Hn. assert (N.of_nat n = 2147483648%N) as -> by (change (2 ^ 31) with 2147483648 in Hn; lia).
  eexists. eexists. eexists. split; [vm_compute; reflexivity|]. split; [vm_compute; reflexivity|]. vm_compute. reflexivity.
Qed.
