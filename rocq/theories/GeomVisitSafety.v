From Verif Require Import Base BaseFacts TypesModel GeomSpec GeomFacts NodesModel NodesSpec VisitorModel VisitorSpec VisitorFacts
  WkbReaderModel WkbReaderSafety GeomVisitModel GeomVisitProofs.
Local Open Scope Z_scope.

(** ** Error propagation *)
Lemma lawful_visit_chunk m c n k : lawful (visit_chunk m c n k).
Proof.
  unfold visit_chunk. apply lawful_bind; [constructor|]. intros [b w]. apply lawful_bind; [constructor|]. intros ws. apply lawful_emit.
Qed.

Lemma lawful_visit_chunks fuel m : forall c n chunk k, lawful (visit_chunks fuel m c n chunk k).
Proof.
  induction fuel as [|f IH]; intros c n chunk k; cbn [visit_chunks]; destruct (chunk <? n); try apply lawful_visit_chunk.
  - constructor.
  - apply lawful_bind; [apply lawful_visit_chunk|]. auto.
Qed.

Lemma lawful_visit_sequence m nd : lawful (visit_sequence m nd).
Proof.
  unfold visit_sequence. apply lawful_bind; [constructor|]. intros n. destruct (n <? 0); [constructor|]. apply lawful_visit_chunks.
Qed.

Lemma lawful_ploop {St} fuel : forall n (body : St -> prog St) s, (forall s, lawful (body s)) -> lawful (ploop fuel n body s).
Proof.
  induction fuel as [|f IH]; intros n body s H; cbn [ploop]; destruct (n =? 0)%N; try constructor.
  apply lawful_bind; auto.
Qed.

Lemma lawful_visit_ring m nodes i : lawful (visit_ring m nodes i).
Proof.
  unfold visit_ring. apply lawful_bind; [apply lawful_emit|intros _].
  apply lawful_bind; [constructor|intros nd]. apply lawful_bind; [apply lawful_visit_sequence|intros _].
  apply lawful_bind; [apply lawful_emit|intros _]. constructor.
Qed.

Lemma lawful_visit_node m nodes fuel : forall i n, lawful (visit_node m nodes fuel i n).
Proof.
  induction fuel as [|f IH]; intros i n; cbn [visit_node]; [constructor|].
  apply lawful_bind; [constructor|intros nd]. apply lawful_bind; [apply lawful_emit|intros _].
  apply lawful_bind; [|intros n'; apply lawful_bind; [apply lawful_emit|intros _; constructor]].
  destruct (_ || _)%bool; [apply lawful_bind; [apply lawful_visit_sequence|intros _; constructor]|].
  destruct (_ =? _)%N.
  { destruct (_ <? _); [constructor|]. apply lawful_bind; [apply lawful_ploop; intros; apply lawful_visit_ring|intros _; constructor]. }
  destruct (_ || _)%bool; [|constructor].
  apply lawful_bind; [|intros [c n']; constructor]. apply lawful_ploop. intros [c n'].
  apply lawful_bind; [apply IH|intros; constructor].
Qed.

Lemma lawful_view_visit m nodes : lawful (view_visit m nodes).
Proof.
  unfold view_visit. apply lawful_bind; [apply lawful_emit|intros _].
  apply lawful_bind; [apply lawful_visit_node|intros n]. destruct (negb _); [constructor|apply lawful_emit].
Qed.

Lemma lawful_wkb_visit src swap0 : lawful (wkb_visit src swap0).
Proof. unfold wkb_visit. apply lawful_bind; [constructor|intros nodes]. apply lawful_view_visit. Qed.

(** ** Nesting *)
Definition takes_coords (st : list frame) : Prop := match st with (FGeom | FRing) :: _ => True | _ => False end.

Lemma nests_coords n cs st : takes_coords st -> nests (emit (ECoords n cs)) st st.
Proof. intros H. apply nests_emit. destruct st as [|[| |] st]; try contradiction; reflexivity. Qed.

Lemma nests_visit_chunk m c n k st : takes_coords st -> nests (visit_chunk m c n k) st st.
Proof.
  intros H. unfold visit_chunk. eapply nests_bind; [apply nests_ret|]. intros [b w].
  eapply nests_bind; [apply nests_ret|]. intros ws. apply nests_coords, H.
Qed.

Lemma nests_visit_chunks fuel m st : takes_coords st -> forall c n chunk k, nests (visit_chunks fuel m c n chunk k) st st.
Proof.
  intros H. induction fuel as [|f IH]; intros c n chunk k; cbn [visit_chunks]; destruct (chunk <? n);
    try (apply nests_visit_chunk; exact H).
  - apply nests_ret.
  - eapply nests_bind; [apply nests_visit_chunk; exact H|]. auto.
Qed.

Lemma nests_visit_sequence m nd st : takes_coords st -> nests (visit_sequence m nd) st st.
Proof.
  intros H. unfold visit_sequence. eapply nests_bind; [apply nests_ret|]. intros n.
  destruct (n <? 0); [apply nests_ret|]. apply nests_visit_chunks, H.
Qed.

Lemma nests_ploop {St} fuel st : forall n (body : St -> prog St) s, (forall s, nests (body s) st st) -> nests (ploop fuel n body s) st st.
Proof.
  induction fuel as [|f IH]; intros n body s H; cbn [ploop]; destruct (n =? 0)%N; try apply nests_ret.
  eapply nests_bind; [apply H|]. intros s'. apply IH, H.
Qed.

Lemma nests_visit_ring m nodes i st : nests (visit_ring m nodes i) (FGeom :: st) (FGeom :: st).
Proof.
  unfold visit_ring. eapply nests_bind; [apply (nests_emit _ _ (FRing :: FGeom :: st)); reflexivity|intros _].
  eapply nests_bind; [apply nests_ret|intros nd]. eapply nests_bind; [apply nests_visit_sequence; exact I|intros _].
  eapply nests_bind; [apply (nests_emit _ _ (FGeom :: st)); reflexivity|intros _]. apply nests_ret.
Qed.

Lemma nests_visit_node m nodes fuel : forall i n f st, f <> FRing -> nests (visit_node m nodes fuel i n) (f :: st) (f :: st).
Proof.
  induction fuel as [|fu IH]; intros i n f st Hf; cbn [visit_node]; [apply nests_ret|].
  eapply nests_bind; [apply nests_ret|intros nd].
  eapply nests_bind; [apply (nests_emit _ _ (FGeom :: f :: st)); destruct f; try reflexivity; contradiction|intros _].
  apply (nests_bind _ _ _ (FGeom :: f :: st)).
  2:{ intros n'. eapply nests_bind; [apply (nests_emit _ _ (f :: st)); reflexivity|intros _; apply nests_ret]. }
  destruct (_ || _)%bool; [eapply nests_bind; [apply nests_visit_sequence; exact I|intros _; apply nests_ret]|].
  destruct (_ =? _)%N.
  { destruct (_ <? _); [apply nests_ret|].
    eapply nests_bind; [apply nests_ploop; intros; apply nests_visit_ring|intros _; apply nests_ret]. }
  destruct (_ || _)%bool; [|apply nests_ret].
  eapply nests_bind; [|intros [c n']; apply nests_ret]. apply nests_ploop. intros [c n'].
  eapply nests_bind; [apply IH; discriminate|intros; apply nests_ret].
Qed.

Lemma nests_view_visit m nodes : nests (view_visit m nodes) [] [].
Proof.
  unfold view_visit. eapply nests_bind; [apply (nests_emit _ _ [FFeat]); reflexivity|intros _].
  eapply nests_bind; [apply nests_visit_node; discriminate|intros n].
  destruct (negb _); [|apply nests_emit; reflexivity].
  exists [FFeat]. split; [reflexivity|discriminate].
Qed.

Lemma nests_wkb_visit src swap0 : nests (wkb_visit src swap0) [] [].
Proof. unfold wkb_visit. eapply nests_bind; [apply nests_ret|]. intros nodes. apply nests_view_visit. Qed.

(** ** Termination, and which nodes are looked at *)
Definition result {A} (p : prog A) : outcome A := snd (trace p).

Lemma result_bind {A B} (p : prog A) (f : A -> prog B) :
  result (pbind p f) = match result p with Ok a => result (f a) | Err c => Err c | UB => UB | NoFuel => NoFuel end.
Proof.
  unfold result. rewrite trace_bind. destruct (trace p) as [e [a|c| |]]; cbn [snd]; try reflexivity.
  destruct (trace (f a)); reflexivity.
Qed.

Lemma result_emit e : result (emit e) = Ok tt.
Proof. reflexivity. Qed.
Lemma result_ret {A} (o : outcome A) : result (Ret o) = o.
Proof. reflexivity. Qed.

Lemma node_row_fuel m nd i k : forall j, node_row m nd i j k <> NoFuel.
Proof.
  induction k as [|k IH]; intros j; cbn [node_row]; [discriminate|].
  destruct (qget _ _); cbn [or_ub obind]; [|discriminate]. destruct (qget _ _); cbn [or_ub obind]; [|discriminate].
  destruct (load64 _ _); cbn [or_ub obind]; [|discriminate].
  specialize (IH (S j)). destruct (node_row _ _ _ _ _); cbn [obind]; congruence.
Qed.
Lemma node_rows_fuel m nd n k : forall i, node_rows m nd i n k <> NoFuel.
Proof.
  induction n as [|n IH]; intros i; cbn [node_rows]; [discriminate|].
  pose proof (node_row_fuel m nd i k 0). destruct (node_row _ _ _ _ _); cbn [obind]; try congruence.
  specialize (IH (i + 1)). destruct (node_rows _ _ _ _ _); cbn [obind]; congruence.
Qed.
Lemma write_sequence_fuel m nd sz : write_sequence m nd sz <> NoFuel.
Proof.
  unfold write_sequence. destruct (num_dimensions _); cbn [or_ub obind]; [|discriminate].
  destruct (_ <? _); [discriminate|]. destruct (_ <? _); [discriminate|].
  match goal with |- context[node_rows m nd 0 ?a ?b] => pose proof (node_rows_fuel m nd a b 0) end.
  destruct (node_rows _ _ _ _ _); cbn [obind]; congruence.
Qed.

Lemma visit_chunk_fuel m c n k : result (visit_chunk m c n k) <> NoFuel.
Proof.
  unfold visit_chunk. rewrite result_bind, result_ret.
  match goal with |- context[write_sequence m ?c ?s] => pose proof (write_sequence_fuel m c s) end.
  destruct (write_sequence _ _ _) as [[b w]| | |]; try congruence.
  rewrite result_bind, result_ret. destruct w; cbn [or_ub]; [|discriminate]. rewrite result_emit. discriminate.
Qed.

Lemma visit_chunks_fuel m fuel : forall c n chunk k, 0 < chunk -> n <= chunk * (Z.of_nat fuel + 1) ->
  result (visit_chunks fuel m c n chunk k) <> NoFuel.
Proof.
  induction fuel as [|f IH]; intros c n chunk k Hc Hn; cbn [visit_chunks]; destruct (Z.ltb_spec chunk n);
    try apply visit_chunk_fuel.
  - lia.
  - rewrite result_bind. pose proof (visit_chunk_fuel m c (Z.to_N chunk) k).
    destruct (result _); try congruence. apply IH; nia.
Qed.

Lemma num_dimensions_cases d n : num_dimensions d = Some n -> n = -1 \/ n = 2 \/ n = 3 \/ n = 4.
Proof.
  unfold num_dimensions. destruct (d =? 0); [intros E; injection E as <-; auto|].
  destruct (d =? 1); [intros E; injection E as <-; auto|]. destruct (d =? 2); [intros E; injection E as <-; auto|].
  destruct (d =? 3); [intros E; injection E as <-; auto|]. destruct (d =? 4); [intros E; injection E as <-; auto|]. discriminate.
Qed.

Lemma visit_sequence_fuel m nd : result (visit_sequence m nd) <> NoFuel.
Proof.
  unfold visit_sequence. rewrite result_bind, result_ret.
  destruct (num_dimensions (Z.of_N (nd_dims nd))) as [n|] eqn:E; cbn [or_ub]; [|discriminate].
  destruct (Z.ltb_spec n 0); [discriminate|].
  assert (0 < COORD_CACHE_SIZE_ELEMENTS / n) as Hc.
  { destruct (num_dimensions_cases _ _ E) as [->|[->|[->| ->]]]; [lia|reflexivity..]. }
  apply visit_chunks_fuel; [exact Hc|].
  set (chunk := COORD_CACHE_SIZE_ELEMENTS / n) in *. clearbody chunk. clear E.
  pose proof (Z.div_mod (Z.of_N (nd_size nd)) chunk ltac:(lia)) as Hd.
  pose proof (Z.mod_pos_bound (Z.of_N (nd_size nd)) chunk Hc) as Hm.
  assert (0 <= Z.of_N (nd_size nd) / chunk) as Hq by (apply Z.div_pos; lia).
  rewrite Z2Nat.id by exact Hq. set (q := Z.of_N (nd_size nd) / chunk) in *. set (r := Z.of_N (nd_size nd) mod chunk) in *.
  clearbody q r. nia.
Qed.

Lemma ploop_fuel {St} (mu : St -> Z) L fuel : forall n (body : St -> prog St) s,
  (forall s, result (body s) <> NoFuel /\ forall s', result (body s) = Ok s' -> mu s < mu s' <= L) ->
  mu s <= L -> L - mu s < Z.of_nat fuel ->
  result (ploop fuel n body s) <> NoFuel /\ forall s', result (ploop fuel n body s) = Ok s' -> mu s + Z.of_N n <= mu s' <= L.
Proof.
  induction fuel as [|f IH]; intros n body s H Hs Hf; [lia|].
  cbn [ploop]. destruct (N.eqb_spec n 0) as [->|Hn].
  - rewrite result_ret. split; [discriminate|]. intros s' E. injection E as <-. lia.
  - rewrite result_bind. destruct (H s) as [H1 H2]. destruct (result (body s)) as [s1| | |]; try (split; congruence).
    specialize (H2 s1 eq_refl). destruct (IH (n - 1)%N body s1 H ltac:(lia) ltac:(lia)) as [H3 H4].
    split; [exact H3|]. intros s' E. specialize (H4 s' E). lia.
Qed.

Lemma get_node_fuel nodes i : get_node nodes i <> NoFuel.
Proof. unfold get_node. destruct (i <? 0); [discriminate|]. destruct (nth_error _ _); discriminate. Qed.

Lemma get_node_range nodes i nd : get_node nodes i = Ok nd -> 0 <= i < Z.of_nat (length nodes).
Proof.
  unfold get_node. destruct (Z.ltb_spec i 0); [discriminate|].
  destruct (nth_error nodes (Z.to_nat i)) eqn:E; [|discriminate]. intros _.
  assert (Z.to_nat i < length nodes)%nat by (apply nth_error_Some; congruence). lia.
Qed.

Lemma visit_ring_fuel m nodes i : result (visit_ring m nodes i) <> NoFuel /\
  forall i', result (visit_ring m nodes i) = Ok i' -> i < i' <= Z.of_nat (length nodes) /\ i' = i + 1.
Proof.
  unfold visit_ring. rewrite result_bind, result_emit, result_bind, result_ret.
  pose proof (get_node_fuel nodes i). destruct (get_node nodes i) as [nd| | |] eqn:E; try (split; congruence).
  apply get_node_range in E.
  rewrite result_bind. pose proof (visit_sequence_fuel m nd). destruct (result (visit_sequence m nd)); try (split; congruence).
  rewrite result_bind, result_emit, result_ret. split; [discriminate|]. intros i' E'. injection E' as <-. lia.
Qed.

(** On success the [n - n'] nodes from [i] on have been consumed, and they all lie in the list. *)
Lemma visit_node_fuel m nodes fuel : forall i n, 0 <= i <= Z.of_nat (length nodes) -> Z.of_nat (length nodes) - i < Z.of_nat fuel ->
  result (visit_node m nodes fuel i n) <> NoFuel /\
  forall n', result (visit_node m nodes fuel i n) = Ok n' -> n' < n /\ i + (n - n') <= Z.of_nat (length nodes).
Proof.
  induction fuel as [|f IH]; intros i n Hi Hf.
  { cbn [visit_node]. split; [|discriminate]. exfalso. lia. }
  cbn [visit_node]. rewrite result_bind, result_ret.
  pose proof (get_node_fuel nodes i). destruct (get_node nodes i) as [nd| | |] eqn:E; try (split; congruence).
  apply get_node_range in E. rewrite result_bind, result_emit, result_bind.
  destruct (_ || _)%bool.
  { rewrite result_bind. pose proof (visit_sequence_fuel m nd). destruct (result (visit_sequence m nd)); try (split; congruence).
    rewrite result_ret, result_bind, result_emit, result_ret. split; [discriminate|]. intros n' E'. injection E' as <-. lia. }
  destruct (_ =? _)%N.
  { destruct (_ <? _); [rewrite result_ret; split; discriminate|].
    rewrite result_bind.
    destruct (ploop_fuel (fun x => x) (Z.of_nat (length nodes)) (length nodes) (nd_size nd) (visit_ring m nodes) (i + 1)) as [A B].
    { intros s. destruct (visit_ring_fuel m nodes s) as [A B]. split; [exact A|]. intros s' E'. apply B, E'. }
    { lia. } { lia. }
    destruct (result (ploop _ _ _ _)) as [j| | |]; try (split; congruence). specialize (B j eq_refl).
    rewrite result_ret, result_bind, result_emit, result_ret. split; [discriminate|]. intros n' E'. injection E' as <-. lia. }
  destruct (_ || _)%bool; [|rewrite result_ret; split; discriminate].
  rewrite result_bind.
  match goal with |- context[ploop ?a ?b ?c ?d] => set (body := c) end.
  (* the state keeps child + n constant *)
  assert (forall fu k child n1, i < child <= Z.of_nat (length nodes) -> Z.of_nat (length nodes) - child < Z.of_nat fu ->
    result (ploop fu k body (child, n1)) <> NoFuel /\
    forall c' n', result (ploop fu k body (child, n1)) = Ok (c', n') ->
      c' <= Z.of_nat (length nodes) /\ c' + n' = child + n1 /\ child <= c') as Hloop.
  { induction fu as [|fu IHf]; intros k child n1 Hch Hfu; [lia|].
    cbn [ploop]. destruct (k =? 0)%N.
    - rewrite result_ret. split; [discriminate|]. intros c' n' E'. injection E' as <- <-. lia.
    - rewrite result_bind. unfold body at 1 3. rewrite result_bind.
      destruct (IH child n1 ltac:(lia) ltac:(lia)) as [A B].
      destruct (result (visit_node m nodes f child n1)) as [n2| | |]; try (split; congruence).
      specialize (B n2 eq_refl). rewrite result_ret.
      destruct (IHf (k - 1)%N (child + (n1 - n2)) n2 ltac:(lia) ltac:(lia)) as [C D].
      split; [exact C|]. intros c' n' E'. specialize (D c' n' E'). lia. }
  destruct (Hloop (length nodes) (nd_size nd) (i + 1) (n - 1) ltac:(lia) ltac:(lia)) as [A B].
  destruct (result (ploop _ _ _ _)) as [[c' n2]| | |]; try (split; congruence).
  specialize (B c' n2 eq_refl).
  rewrite result_ret, result_bind, result_emit, result_ret. split; [discriminate|]. intros n' E'. injection E' as <-. lia.
Qed.

Lemma view_visit_terminates m nodes : snd (trace (view_visit m nodes)) <> NoFuel.
Proof.
  change (result (view_visit m nodes) <> NoFuel). unfold view_visit. rewrite result_bind, result_emit, result_bind.
  destruct (visit_node_fuel m nodes (S (length nodes)) 0 (Z.of_nat (length nodes)) ltac:(lia) ltac:(lia)) as [A _].
  destruct (result _) as [n| | |]; try congruence. destruct (negb _); [rewrite result_ret|rewrite result_emit]; discriminate.
Qed.

Lemma wkb_visit_terminates src swap0 : snd (trace (wkb_visit src swap0)) <> NoFuel.
Proof.
  change (result (wkb_visit src swap0) <> NoFuel). unfold wkb_visit. rewrite result_bind, result_ret.
  pose proof (wkb_read_terminates src swap0). destruct (wkb_read_from src swap0); try congruence. apply view_visit_terminates.
Qed.

(** ** Malformed node lists *)

(** Surplus nodes are reported. *)
Lemma view_visit_surplus m nodes extra g : repr_geom m 0 nodes g -> wf_geom g -> extra <> [] ->
  exists evs, trace (view_visit m (nodes ++ extra)) = ([EFeatStart] ++ evs, Err EINVAL) /\ geom_events g evs.
Proof.
  intros Hr Hwf Hex.
  destruct (visit_node_ok m g Hwf 0%N nodes Hr [] extra (S (length (nodes ++ extra)))) with (n := Z.of_nat (length (nodes ++ extra)))
    as (evs & E & Hg & Hb).
  { pose proof (repr_depth m g 0 nodes Hr). rewrite app_length. lia. }
  { rewrite app_length. lia. }
  cbn [app length] in E.
  exists evs. split; [|exact Hg]. unfold view_visit. apply trace_emit_bind.
  rewrite <- (app_nil_r evs). eapply trace_bind_ok; [exact E|].
  destruct extra as [|x extra]; [contradiction|]. rewrite app_length. cbn [length].
  destruct (Z.eqb_spec (Z.of_nat (length nodes + S (length extra)) - Z.of_nat (length nodes)) 0); [lia|]. reflexivity.
Qed.

(** A collection node that announces one member, and nothing after it. *)
Definition truncated_collection : list node :=
  [{| nd_coords := qconst nan_ptr; nd_stride := qconst 0; nd_size := 1; nd_type := 7; nd_dims := 1; nd_swap := false; nd_level := 0 |}].

Lemma truncated_collection_ub m :
  trace (view_visit m truncated_collection) = ([EFeatStart; EGeomStart 7 1], UB).
Proof. vm_compute. reflexivity. Qed.

(** ** Reading WKB and visiting the result *)
From Verif Require Import WkbSpec WkbReaderProofs.

Lemma wkb_visit_ok g b rest swap0 : wkb g b -> wf_geom g -> (levels g <= 256)%nat -> (N.of_nat (length b) < 2 ^ 35)%N ->
  exists evs, trace (wkb_visit (b ++ rest) swap0) = ([EFeatStart] ++ evs ++ [EFeatEnd], Ok tt) /\
    geom_events g evs /\ small_batches evs.
Proof.
  intros Hb Hwf Hl Hs. destruct (wkb_read_ok g b rest swap0 Hb Hwf Hl Hs) as (nodes & E & Hr).
  unfold wkb_visit. rewrite E, trace_ret_bind. apply view_visit_ok; assumption.
Qed.
