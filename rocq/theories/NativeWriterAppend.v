(** * Appending geometries to a native writer *)
From Verif Require Import Base BaseFacts TypesModel GeomSpec VisitorModel BufferModel BufferFacts CoordsModel BitmapModel BitmapSpec BitmapProofs
  ArrowModel ArrayViewModel NativeSpec NativeProofs GeomFacts NodesModel NodesSpec CopyCoordsModel CopyCoordsSpec CopyCoordsProofs
  BuilderModel BuilderSpec BuilderRun BuilderFacts BuilderCoords BuilderAppend BuilderFinish BuilderProofs NativeWriterModel NativeWriterSpec NativeWriterFacts.
Local Open Scope Z_scope.

Lemma to_int32_mod z : to_int32 z mod 4294967296 = z mod 4294967296.
Proof.
  unfold to_int32. rewrite Zminus_mod_idemp_l. f_equal. lia.
Qed.
Lemma to_int32_add a b : to_int32 (to_int32 a + b) = to_int32 (a + b).
Proof.
  unfold to_int32 at 1 3. f_equal. rewrite <- Z.add_assoc, <- (Z.add_assoc a). rewrite <- Zplus_mod_idemp_l, to_int32_mod, Zplus_mod_idemp_l. reflexivity.
Qed.

Definition plus (cnt ext : nat -> list Z) : nat -> list Z := fun j => cnt j ++ ext j.
Definition at_level (i : nat) (xs : list Z) : nat -> list Z := fun j => if Nat.eqb j i then xs else [].

Definition lasts (k : geometry_kind) (w : nwriter) (cnt : nat -> list Z) : Prop :=
  forall i, (i < n_lists k)%nat -> qget (nw_last w) i = Some (to_int32 (total (cnt i))).
Definition writing (k : geometry_kind) (l : layout) (d : dim) (w : nwriter) (cnt : nat -> list Z) (cs : list coord) : Prop :=
  built k l d (nw_builder w) cnt cs /\ lasts k w cnt.
Definition frame (w w' : nwriter) : Prop := exists b last, w' = with_counts (with_builder w b) (nw_length w) last.

Lemma frame_refl w : frame w w.
Proof. exists (nw_builder w), (nw_last w). destruct w; reflexivity. Qed.
Lemma frame_trans a b c : frame a b -> frame b c -> frame a c.
Proof. intros (x & y & ->) (u & v & ->). exists u, v. destruct a; reflexivity. Qed.
Lemma frame_builder w b : frame w (with_builder w b).
Proof. exists b, (nw_last w). destruct w; reflexivity. Qed.

Lemma writing_ext k l d w cnt cnt' cs cs' : writing k l d w cnt cs -> (forall i, (i < n_lists k)%nat -> cnt i = cnt' i) -> cs = cs' -> writing k l d w cnt' cs'.
Proof.
  intros (H1 & H2) He Hc. split; [eapply built_ext; eassumption|]. intros i Hi. rewrite <- He by exact Hi. auto.
Qed.

Lemma n_lists_le k : (n_lists k <= 3)%nat.
Proof. destruct k; cbn; lia. Qed.

(** ** The abstract side: lengths at every level and coordinates of a list of elements *)
Fixpoint counts (n : nat) : list (nest n) -> nat -> list Z :=
  match n return list (nest n) -> nat -> list Z with
  | O => fun _ _ => []
  | S n' => fun xs i => match i with O => map (fun x => Z.of_nat (length x)) xs | S i' => counts n' (concat xs) i' end
  end.
Fixpoint leaves (n : nat) : list (nest n) -> list coord :=
  match n return list (nest n) -> list coord with
  | O => fun xs => xs
  | S n' => fun xs => leaves n' (concat xs)
  end.

Lemma counts_app n : forall a b i, counts n (a ++ b) i = counts n a i ++ counts n b i.
Proof.
  induction n as [|n IH]; intros a b i; [reflexivity|]. cbn [counts]. destruct i; [apply map_app|]. rewrite concat_app. apply IH.
Qed.
Lemma leaves_app n : forall a b, leaves n (a ++ b) = leaves n a ++ leaves n b.
Proof. induction n as [|n IH]; intros a b; [reflexivity|]. cbn [leaves]. rewrite concat_app. apply IH. Qed.

Section Junk.
  Variable junk : nat -> nat -> N.
  Hypothesis junk_bytes : forall i j, is_byte (junk i j).

  Lemma append_size_ok k l d w cnt cs i size : writing k l d w cnt cs -> (i < n_lists k)%nat -> Z.of_N size < 2 ^ 31 ->
    exists w', append_size junk w i size = VRet w' 0 /\ writing k l d w' (plus cnt (at_level i [Z.of_N size])) cs /\ frame w w'.
  Proof.
    intros (Hb & Hl) Hi Hs. unfold append_size. destruct (N.ltb_spec (Z.to_N int32_max) size); [unfold int32_max in *; lia|].
    rewrite (Hl i Hi). cbn [nw_builder with_counts].
    set (last := to_int32 (to_int32 (total (cnt i)) + Z.of_N size)).
    destruct (built_push junk junk_bytes k l d (nw_builder w) cnt cs i last (Z.of_N size) Hb Hi) as (b' & E & B).
    { unfold last. rewrite to_int32_add, to_int32_mod. reflexivity. }
    rewrite E. cbn [on_builder]. eexists. split; [reflexivity|].
    assert (forall j, add_at i (Z.of_N size) cnt j = plus cnt (at_level i [Z.of_N size]) j) as He.
    { intros j. unfold add_at, plus, at_level. destruct (Nat.eqb j i); [reflexivity|]. rewrite app_nil_r. reflexivity. }
    split; [split|].
    - eapply built_ext; [exact B|intros; apply He|reflexivity].
    - intros j Hj. rewrite <- He. cbn [nw_last with_builder with_counts]. unfold add_at. destruct (Nat.eqb_spec j i) as [->|Hne].
      + rewrite qget_qset_same by (pose proof (n_lists_le k); lia). unfold last. rewrite to_int32_add, total_app. cbn [total fold_right]. do 2 f_equal. lia.
      + rewrite qget_qset_other by (pose proof (n_lists_le k); lia). auto.
    - exists b', (qset (nw_last w) i last). destruct w; reflexivity.
  Qed.

  Lemma linestring_offsets_ok k l d off rest : (off < n_lists k)%nat -> forall nodes w cnt cs, writing k l d w cnt cs ->
    Forall (fun nd => Z.of_N (nd_size nd) < 2 ^ 31) nodes ->
    exists w', append_linestring_offsets junk (length nodes) w (nodes ++ rest) off = VRet w' 0 /\
      writing k l d w' (plus cnt (at_level off (map (fun nd => Z.of_N (nd_size nd)) nodes))) cs /\ frame w w'.
  Proof.
    intros Ho. induction nodes as [|nd nodes IH]; intros w cnt cs Hw HF; cbn [length append_linestring_offsets app map].
    - exists w. split; [reflexivity|]. split; [|apply frame_refl]. eapply writing_ext; [exact Hw| |reflexivity].
      intros i Hi. unfold plus, at_level. destruct (Nat.eqb i off); rewrite app_nil_r; reflexivity.
    - inversion HF; subst. destruct (append_size_ok k l d w cnt cs off (nd_size nd) Hw Ho ltac:(assumption)) as (w1 & E1 & W1 & F1).
      rewrite E1. cbn [wthen]. change (0 =? 0) with true. cbn iota.
      destruct (IH w1 _ _ W1 ltac:(assumption)) as (w2 & E2 & W2 & F2). exists w2. split; [exact E2|].
      split; [|eapply frame_trans; eassumption]. eapply writing_ext; [exact W2| |reflexivity].
      intros i Hi. unfold plus, at_level. destruct (Nat.eqb i off); rewrite <- ?app_assoc; reflexivity.
  Qed.

  (** The nodes of polygons, given by the sizes of their rings. *)
  Inductive poly_nodes : list (list Z) -> list node -> Prop :=
  | pn_nil : poly_nodes [] []
  | pn_cons rs ps nd rn rest : Z.of_N (nd_size nd) = Z.of_nat (length rs) -> map (fun nd => Z.of_N (nd_size nd)) rn = rs ->
      poly_nodes ps rest -> poly_nodes (rs :: ps) (nd :: rn ++ rest).

  Lemma polygon_offsets_ok k l d off tail : (S off < n_lists k)%nat -> forall polys nodes, poly_nodes polys nodes ->
    Forall (fun rs => Z.of_nat (length rs) < 2 ^ 31 /\ Forall (fun r => r < 2 ^ 31) rs) polys ->
    forall w cnt cs, writing k l d w cnt cs ->
    exists w', append_polygon_offsets junk (length polys) w (nodes ++ tail) off = VRet w' 0 /\
      writing k l d w' (plus cnt (plus (at_level off (map (fun rs => Z.of_nat (length rs)) polys)) (at_level (S off) (concat polys)))) cs /\ frame w w'.
  Proof.
    intros Ho. induction 1 as [|rs ps nd rn rest Hn Hm Hp IH]; intros HF w cnt cs Hw; cbn [length append_polygon_offsets app map concat].
    - exists w. split; [reflexivity|]. split; [|apply frame_refl]. eapply writing_ext; [exact Hw| |reflexivity].
      intros i Hi. unfold plus, at_level. destruct (Nat.eqb i off), (Nat.eqb i (S off)); cbn [app]; rewrite app_nil_r; reflexivity.
    - apply Forall_cons_iff in HF as ((Hl & Hr) & HF').
      destruct (append_size_ok k l d w cnt cs off (nd_size nd) Hw ltac:(lia) ltac:(lia)) as (w1 & E1 & W1 & F1).
      rewrite E1. cbn [wthen]. change (0 =? 0) with true. cbn iota.
      assert (length rn = length rs) as HL by (rewrite <- Hm, map_length; reflexivity).
      assert (N.to_nat (nd_size nd) = length rn) as -> by lia.
      rewrite <- app_assoc.
      destruct (linestring_offsets_ok k l d (S off) (rest ++ tail) ltac:(lia) rn w1 _ _ W1) as (w2 & E2 & W2 & F2).
      { rewrite <- Hm, Forall_map in Hr. exact Hr. }
      rewrite E2. cbn [wthen]. change (0 =? 0) with true. cbn iota.
      rewrite skipn_app, skipn_all, Nat.sub_diag. cbn [skipn app].
      destruct (IH HF' w2 _ _ W2) as (w3 & E3 & W3 & F3). exists w3. split; [exact E3|].
      split; [|eapply frame_trans; [|exact F3]; eapply frame_trans; eassumption]. eapply writing_ext; [exact W3| |reflexivity].
      intros i Hi. unfold plus, at_level. destruct (Nat.eqb_spec i off) as [E|E]; destruct (Nat.eqb_spec i (S off)) as [E'|E']; try lia;
        rewrite ?Hm, <- ?app_assoc; cbn [app]; rewrite ?app_nil_r; try reflexivity. rewrite Hn. reflexivity.
  Qed.
End Junk.
