From Verif Require Import Base BaseFacts Text GeomSpec GeomFacts VisitorModel VisitorSpec VisitorFacts WktSpec WktReaderModel WktGrammar WktReaderFacts WktReaderProofs.
Local Open Scope Z_scope.

Lemma batches_app a b : batches_of_64 a -> batches_of_64 b -> batches_of_64 (a ++ b).
Proof. intros. apply Forall_app. auto. Qed.
Lemma batches_nil : batches_of_64 [].
Proof. constructor. Qed.
Lemma batches_wrap x y e : batches_of_64 [x; y] -> batches_of_64 e -> batches_of_64 ([x] ++ e ++ [y]).
Proof.
  intros H He. inversion H as [|? ? Hx H']; subst. apply batches_app; [constructor; [exact Hx|constructor]|]. apply batches_app; assumption.
Qed.

Lemma ring_events_snoc d rings cs e e1 : ring_events d rings e -> seq_events d cs e1 -> ring_events d (rings ++ [cs]) (e ++ [ERingStart] ++ e1 ++ [ERingEnd]).
Proof.
  induction 1 as [|c rs a b Ha Hb IH]; intros H; cbn [app].
  - rewrite <- (app_nil_r [ERingEnd]). apply (re_ring d cs [] e1 []); [exact H|constructor].
  - rewrite <- !app_assoc. apply (re_ring d c (rs ++ [cs]) a); [exact Ha|]. apply IH; exact H.
Qed.
Lemma parts_events_snoc gs g e e1 : parts_events gs e -> geom_events g e1 -> parts_events (gs ++ [g]) (e ++ e1).
Proof.
  intros H H1. revert e H; induction gs as [|x gs IH]; intros e H; inversion H; subst; cbn [app].
  - rewrite <- (app_nil_r e1). constructor; [exact H1|constructor].
  - rewrite <- app_assoc. constructor; [assumption|]. apply IH; assumption.
Qed.

Definition seq_ev (d : dim) (cs : list coord) (e : list event) : Prop := seq_events d cs e /\ batches_of_64 e.
Definition rings_ev (d : dim) (rings : list (list coord)) (e : list event) : Prop := ring_events d rings e /\ batches_of_64 e.
Definition geom_ev (g : geom) (e : list event) : Prop := geom_events g e /\ batches_of_64 e.
Definition parts_ev (gs : list geom) (e : list event) : Prop := parts_events gs e /\ batches_of_64 e.
Lemma parts_ev_nil : parts_ev [] [].
Proof. split; [constructor|apply batches_nil]. Qed.
Lemma parts_ev_snoc gs g e e1 : parts_ev gs e -> geom_ev g e1 -> parts_ev (gs ++ [g]) (e ++ e1).
Proof. intros [A B] [C D]. split; [apply parts_events_snoc; assumption|apply batches_app; assumption]. Qed.

Section Parser.
Variable parse : bytes -> option N.
Hypothesis number : number_parser parse.

Definition dims_are (d : dim) (s : rst) : Prop := r_nvals s = N.of_nat (ndim d).
Lemma dims_past d s t r : dims_are d s -> dims_are d (past s t r).
Proof. intros H. exact H. Qed.

Definition cached (d : dim) (cs : list coord) (e : list event) (s : rst) : Prop :=
  exists c0 c1, cs = c0 ++ c1 /\ r_cache s = Some c1 /\ dims_are d s /\ seq_ev d c0 e /\ (length c1 <= 64)%nat.
Lemma cached_past d cs e s t r : cached d cs e s -> cached d cs e (past s t r).
Proof. intros (c0 & c1 & H). exists c0, c1. exact H. Qed.
Lemma cached_reset d s : dims_are d s -> cached d [] [] (reset_cache s).
Proof. intros H. exists [], []. repeat split; try assumption; cbn; try lia; constructor. Qed.
Lemma reset_moved s t s' : moved (reset_cache s) t s' <-> moved s t s'.
Proof. reflexivity. Qed.

Lemma flush_ok d cs e s : good s -> cached d cs e s ->
  exists e1 s', trace (flush_cache s) = (e1, Ok s') /\ cached d cs (e ++ e1) s' /\ r_cache s' = Some [] /\ seq_ev d cs (e ++ e1) /\
    moved s [] s' /\ dims_are d s'.
Proof.
  intros Hg (c0 & c1 & -> & Hc & Hd & [He Hb] & Hl). unfold flush_cache. rewrite Hc. destruct c1 as [|c c1].
  - exists [], s. rewrite !app_nil_r. split; [reflexivity|]. split; [|split; [exact Hc|split; [split; assumption|split; [apply moved_refl; exact Hg|exact Hd]]]].
    exists c0, []. rewrite app_nil_r. repeat split; try assumption; cbn; lia.
  - assert (seq_ev d (c0 ++ c :: c1) (e ++ [ECoords (r_nvals s) (c :: c1)])) as Hs.
    { split; [apply seq_events_app; [exact He|rewrite Hd; apply seq_events_single]|].
      apply batches_app; [exact Hb|]. constructor; [cbn [length] in *; lia|constructor]. }
    eexists _, (rset_cache s []). split; [apply trace_emit_bind; reflexivity|]. split; [|split; [reflexivity|split; [exact Hs|split]]].
    + exists (c0 ++ c :: c1), []. rewrite app_nil_r. split; [reflexivity|]. split; [reflexivity|]. split; [exact Hd|]. split; [exact Hs|cbn; lia].
    + split; [reflexivity|]. split; [reflexivity|exact Hg].
    + exact Hd.
Qed.

Lemma coord_solid d c t r : coord_text parse d c t -> no_space (t ++ r).
Proof. intros [_ H]. apply (ordinates_solid parse number c t r H). Qed.

(** Reading a coordinate: room in the cache first. *)
Lemma room_ok d cs e s : good s -> cached d cs e s ->
  exists e1 s1 c1, trace (let! cs := Ret (or_ub (r_cache s)) in if (length cs =? COORD_CACHE_SIZE_COORDS)%nat then flush_cache s else Ret (Ok s)) = (e1, Ok s1) /\
    cached d cs (e ++ e1) s1 /\ r_cache s1 = Some c1 /\ (length c1 < 64)%nat /\ moved s [] s1.
Proof.
  intros Hg H. pose proof H as (c0 & c1 & E & Hc & Hd & He & Hl). rewrite Hc. cbn [or_ub]. rewrite trace_ret_bind.
  unfold COORD_CACHE_SIZE_COORDS. destruct (Nat.eqb_spec (length c1) 64) as [E64|E64].
  - destruct (flush_ok d cs e s Hg H) as (e1 & s1 & T & C & Hc1 & _ & M & _). exists e1, s1, []. repeat (split; [assumption|]). split; [cbn; lia|exact M].
  - exists [], s, c1. rewrite app_nil_r. repeat (split; [reflexivity || assumption|]). split; [lia|]. apply moved_refl; exact Hg.
Qed.
Lemma cached_snoc d cs e s c1 c : cached d cs e s -> r_cache s = Some c1 -> (length c1 < 64)%nat -> cached d (cs ++ [c]) e (rset_cache s (c1 ++ [c])).
Proof.
  intros (c0 & c1' & -> & Hc & Hd & He & Hl) E Hl'. rewrite Hc in E. injection E as ->. exists c0, (c1 ++ [c]). rewrite app_assoc.
  split; [reflexivity|]. split; [reflexivity|]. split; [exact Hd|]. split; [exact He|]. rewrite app_length. cbn. lia.
Qed.

Lemma read_coordinate_trace s : trace (read_coordinate parse s) =
  trace (pbind (let! cs := Ret (or_ub (r_cache s)) in if (length cs =? COORD_CACHE_SIZE_COORDS)%nat then flush_cache s else Ret (Ok s))
    (fun s => let! (w, s) := Ret (read_ordinate parse s) in
              let! (ws, s) := Ret (read_ordinates parse (N.to_nat (r_nvals s) - 1) s) in
              let! cs := Ret (or_ub (r_cache s)) in
              if (COORD_CACHE_SIZE_COORDS <=? length cs)%nat then Ret UB
              else Ret (Ok (rset_cache s (cs ++ [w :: ws]))))).
Proof. unfold read_coordinate. rewrite trace_bind_assoc. reflexivity. Qed.

Lemma read_coordinate_complete d cs e s c t r : good s -> cached d cs e s -> r_rest s = t ++ r -> coord_text parse d c t -> word_end r ->
  exists e1 s', trace (read_coordinate parse s) = (e1, Ok s') /\ cached d (cs ++ [c]) (e ++ e1) s' /\ moved s t s'.
Proof.
  intros Hg H Hr [Hlen Ht] Hw. destruct (room_ok d cs e s Hg H) as (e1 & s1 & c1 & T & C & Hc & Hl & M).
  destruct c as [|w ws]; [contradiction|]. apply ordinates_split in Ht as (t1 & u & Hn & Hu & ->).
  pose proof (moved_rest _ _ _ _ M Hr) as R1. pose proof (moved_good _ _ _ M) as G1. rewrite <- app_assoc in R1.
  exists e1, (rset_cache (past s1 (t1 ++ u) r) (c1 ++ [w :: ws])). split; [|split].
  - rewrite read_coordinate_trace. apply (trace_bind_ret _ _ e1 s1); [exact T|].
    rewrite (read_ordinate_ok parse s1 w t1 (u ++ r) G1 R1 Hn) by (eapply tail_word_end; eassumption). rewrite trace_ret_bind.
    assert (N.to_nat (r_nvals (past s1 t1 (u ++ r))) - 1 = length ws)%nat as ->.
    { destruct C as (_ & _ & _ & _ & Hd & _). rewrite past_nvals, Hd. cbn [length] in Hlen. lia. }
    rewrite (read_ordinates_ok parse number ws _ u r (past_good _ _ _) (past_rest _ _ _) Hu Hw). rewrite trace_ret_bind, past_past.
    rewrite past_cache, Hc. cbn [or_ub]. rewrite trace_ret_bind. unfold COORD_CACHE_SIZE_COORDS. destruct (Nat.leb_spec 64 (length c1)); [lia|reflexivity].
  - apply cached_snoc; [apply cached_past; exact C|exact Hc|exact Hl].
  - change (moved s ([] ++ (t1 ++ u)) (rset_cache (past s1 (t1 ++ u) r) (c1 ++ [w :: ws]))). eapply moved_trans; [exact M|].
    assert (moved s1 (t1 ++ u) (past s1 (t1 ++ u) r)) as M1 by (apply moved_past; rewrite R1, app_assoc; reflexivity). exact M1.
Qed.

Lemma read_coordinate_sound d cs e s : good s -> cached d cs e s ->
  post (read_coordinate parse s) (fun e1 s' => exists c t, coord_text parse d c t /\ cached d (cs ++ [c]) (e ++ e1) s' /\ moved s t s').
Proof.
  intros Hg H. destruct (room_ok d cs e s Hg H) as (e1 & s1 & c1 & T & C & Hc & Hl & M). pose proof (moved_good _ _ _ M) as G1.
  unfold post. rewrite read_coordinate_trace. match goal with |- match trace ?p with _ => _ end => change (post p (fun e1 s' => exists c t, coord_text parse d c t /\ cached d (cs ++ [c]) (e ++ e1) s' /\ moved s t s')) end.
  apply post_bind. unfold post at 1. rewrite T.
  destruct (read_ordinate_any parse s1 G1) as [(w & t1 & r1 & E1 & Hn & Hw & ->)| ->]; [|apply post_err]. rewrite trace_ret_bind.
  set (k := (N.to_nat (r_nvals (past s1 t1 r1)) - 1)%nat).
  destruct (read_ordinates_any parse k (past s1 t1 r1) (past_good _ _ _)) as [(ws & u & r2 & L & E2 & Hu & _ & ->)| ->]; [|apply post_err].
  rewrite trace_ret_bind, past_past, past_cache, Hc. cbn [or_ub]. rewrite trace_ret_bind. unfold COORD_CACHE_SIZE_COORDS.
  destruct (Nat.leb_spec 64 (length c1)); [lia|]. apply post_ret. rewrite app_nil_r. exists (w :: ws), (t1 ++ u). split; [|split].
  - split; [|apply ordinates_split; eauto]. destruct C as (_ & _ & _ & _ & Hd & _). unfold k in L. rewrite past_nvals, Hd in L. cbn [length].
    destruct d; cbn in *; lia.
  - apply cached_snoc; [apply cached_past; exact C|exact Hc|exact Hl].
  - change (moved s ([] ++ (t1 ++ u)) (rset_cache (past s1 (t1 ++ u) r2) (c1 ++ [w :: ws]))). eapply moved_trans; [exact M|].
    assert (moved s1 (t1 ++ u) (past s1 (t1 ++ u) r2)) as M1 by (apply moved_past; rewrite past_rest in E2; rewrite E1, E2, app_assoc; reflexivity). exact M1.
Qed.

(** ** Sequences *)
Definition seq_list (s : rst) : prog rst :=
  let! s := read_coordinate parse (reset_cache s) in
  let! s := Ret (skip_space s) in
  let! s := more_items (items_fuel s) (read_coordinate parse) s in
  let! s := flush_cache s in
  Ret (radvance s 1).
Lemma seq_list_trace s : trace (seq_list s) =
  trace (pbind (let! s := read_coordinate parse (reset_cache s) in let! s := Ret (skip_space s) in more_items (items_fuel s) (read_coordinate parse) s)
    (fun s => let! s := flush_cache s in Ret (radvance s 1))).
Proof.
  unfold seq_list. rewrite trace_bind_assoc, !trace_bind. destruct (trace (read_coordinate parse (reset_cache s))) as [e [a|c| |]]; try reflexivity.
  rewrite trace_bind_assoc. reflexivity.
Qed.

Lemma read_coordinates_complete d cs s b t r : good s -> dims_are d s -> blank b -> r_rest s = b ++ t ++ r -> seq_text parse d cs t -> word_end r ->
  exists e s', trace (read_coordinates parse s) = (e, Ok s') /\ seq_ev d cs e /\ dims_are d s' /\ moved s (b ++ t) s'.
Proof.
  intros Hg Hd Hb Hr Ht Hw.
  apply (empty_or_complete (coord_text parse d) (seq_ev d) (dims_are d) (length (r_rest s)) seq_list) with (r := r); try assumption; try lia.
  - split; constructor.
  - apply dims_past.
  - generalize (length (r_rest s)). clear - number. intros bound cs s u r Hg Hd _ Hr Hu.
    destruct (items_complete (coord_text parse d) (cached d) (read_coordinate parse) (S (length (r_rest s)))) with (xs := cs) (s := reset_cache s) (u := u) (r := r)
      as (e & s1 & T & C & M).
    + apply cached_past.
    + apply coord_solid.
    + intros xs e s0 x t r0 Hg0 C0 _ Hr0 Hx Hw. eapply read_coordinate_complete; eassumption.
    + exact Hg.
    + apply cached_reset; exact Hd.
    + cbn; lia.
    + exact Hu.
    + exact Hr.
    + pose proof (moved_rest _ _ _ _ M Hr) as R1. pose proof (moved_good _ _ _ M) as G1.
      destruct (flush_ok d cs e s1 G1 C) as (e2 & s2 & T2 & _ & _ & Hs & M2 & Hd2).
      pose proof (moved_rest _ _ _ _ M2 R1) as R2. pose proof (moved_good _ _ _ M2) as G2.
      exists (e ++ e2), (past s2 $")" r). split; [|split; [exact Hs|split; [exact Hd2|]]].
      * rewrite seq_list_trace. eapply trace_bind_ok; [exact T|]. eapply trace_bind_ret; [exact T2|]. change 1%nat with (length $")").
        rewrite (radvance_ok s2 $")" r G2 R2). reflexivity.
      * apply (proj1 (reset_moved s u s1)) in M. eapply moved_trans; [exact M|]. change $")" with ([] ++ $")"). eapply moved_trans; [exact M2|].
        apply moved_past. exact R2.
  - apply coord_solid.
Qed.

Lemma read_coordinates_sound d s : good s -> dims_are d s ->
  post (read_coordinates parse s) (fun e s' => exists cs b t, blank b /\ seq_text parse d cs t /\ seq_ev d cs e /\ dims_are d s' /\ moved s (b ++ t) s').
Proof.
  intros Hg Hd.
  apply (empty_or_sound (coord_text parse d) (seq_ev d) (dims_are d) (length (r_rest s)) seq_list); try assumption; try lia.
  - split; constructor.
  - apply dims_past.
  - generalize (length (r_rest s)). clear - number. intros bound s Hg Hns Hd _ _. unfold post. rewrite seq_list_trace.
    match goal with |- match trace ?p with _ => _ end => change (post p (fun e s' => exists xs u b, blank b /\ list_text (coord_text parse d) xs u /\
      seq_ev d xs e /\ dims_are d s' /\ moved s (b ++ u ++ $")") s')) end.
    apply post_bind. eapply post_weaken.
    + apply (items_sound (coord_text parse d) (cached d) (read_coordinate parse) (S (length (r_rest s)))).
      * apply cached_past.
      * intros xs e s0 Hg0 _ C0 _. apply read_coordinate_sound; assumption.
      * exact Hg.
      * exact Hns.
      * apply cached_reset; exact Hd.
      * cbn; lia.
    + intros e s1 (xs & u & r & Hu & C & R1 & M). pose proof (moved_good _ _ _ M) as G1.
      destruct (flush_ok d xs e s1 G1 C) as (e2 & s2 & T2 & _ & _ & Hs & M2 & Hd2).
      pose proof (moved_rest _ _ _ _ M2 R1) as R2. pose proof (moved_good _ _ _ M2) as G2.
      apply post_bind. unfold post at 1. rewrite T2. change 1%nat with (length $")"). rewrite (radvance_ok s2 $")" r G2 R2). apply post_ret.
      exists xs, u, []. split; [constructor|]. split; [exact Hu|]. rewrite app_nil_r. split; [exact Hs|]. split; [exact Hd2|].
      apply (proj1 (reset_moved s u s1)) in M. cbn [app]. eapply moved_trans; [exact M|]. change $")" with ([] ++ $")"). eapply moved_trans; [exact M2|].
      apply moved_past. exact R2.
Qed.

(** ** Points *)
(** A single coordinate: its events and position. *)
Lemma one_coordinate_complete d s c t r : good s -> dims_are d s -> r_rest s = t ++ r -> coord_text parse d c t -> word_end r ->
  exists e s', trace (let! s := read_coordinate parse (reset_cache s) in flush_cache s) = (e, Ok s') /\ seq_ev d [c] e /\ dims_are d s' /\ moved s t s'.
Proof.
  intros Hg Hd Hr Hc Hw. destruct (read_coordinate_complete d [] [] (reset_cache s) c t r) as (e1 & s1 & T1 & C1 & M1); try assumption.
  { apply cached_reset; exact Hd. }
  destruct (flush_ok d [c] e1 s1 (moved_good _ _ _ M1) C1) as (e2 & s2 & T2 & _ & _ & Hs & M2 & Hd2).
  exists (e1 ++ e2), s2. split; [eapply trace_bind_ok; eassumption|]. split; [exact Hs|]. split; [exact Hd2|].
  apply (proj1 (reset_moved _ _ _)) in M1. rewrite <- (app_nil_r t). eapply moved_trans; eassumption.
Qed.
Lemma one_coordinate_sound d s : good s -> dims_are d s ->
  post (let! s := read_coordinate parse (reset_cache s) in flush_cache s) (fun e s' => exists c t, coord_text parse d c t /\ seq_ev d [c] e /\ dims_are d s' /\ moved s t s').
Proof.
  intros Hg Hd. apply post_bind. eapply post_weaken; [apply (read_coordinate_sound d [] []); [exact Hg|apply cached_reset; exact Hd]|].
  intros e1 s1 (c & t & Hc & C1 & M1).
  destruct (flush_ok d [c] e1 s1 (moved_good _ _ _ M1) C1) as (e2 & s2 & T2 & _ & _ & Hs & M2 & Hd2).
  unfold post. rewrite T2. exists c, t. split; [exact Hc|]. split; [exact Hs|]. split; [exact Hd2|].
  apply (proj1 (reset_moved _ _ _)) in M1. rewrite <- (app_nil_r t). eapply moved_trans; eassumption.
Qed.

Lemma list_text_single {A} (R : A -> bytes -> Prop) x u : list_text R [x] u <-> exists t b, R x t /\ blank b /\ u = t ++ b.
Proof. reflexivity. Qed.

Lemma read_point_complete d cs s b t r : good s -> dims_are d s -> blank b -> r_rest s = b ++ t ++ r -> (length cs <= 1)%nat -> seq_text parse d cs t -> word_end r ->
  exists e s', trace (read_point parse s) = (e, Ok s') /\ seq_ev d cs e /\ dims_are d s' /\ moved s (b ++ t) s'.
Proof.
  intros Hg Hd Hb Hr Hl Ht Hw.
  unfold read_point, empty_or.
  assert (no_space (t ++ r)) as Hn by (destruct Ht as [[_ ->]|(b' & u & _ & _ & ->)]; reflexivity).
  rewrite (skip_space_ok s b (t ++ r) Hg Hr Hb Hn), trace_ret_bind.
  rewrite (peek_ok _ (past_good _ _ _)), past_rest, trace_ret_bind. set (s1 := past s b (t ++ r)).
  destruct Ht as [[-> ->]|(b' & u & Hb' & Hu & ->)].
  - change (hd 0%N ($"EMPTY" ++ r) =? chr_open)%N with false. cbv iota. rewrite (assert_empty_ok s1 r (past_good _ _ _) (past_rest _ _ _) Hw).
    unfold s1. rewrite past_past. eexists [], _. split; [reflexivity|]. split; [split; constructor|]. split; [exact Hd|].
    apply moved_past. rewrite <- app_assoc. exact Hr.
  - change (hd 0%N (($"(" ++ b' ++ u ++ $")") ++ r) =? chr_open)%N with true. cbv iota.
    assert (r_rest s = b ++ $"(" ++ b' ++ u ++ $")" ++ r) as Hr' by (rewrite Hr, <- !app_assoc; reflexivity).
    destruct cs as [|c [|c' cs]]; [contradiction| |cbn in Hl; lia]. apply list_text_single in Hu as (t1 & b1 & Hc & Hb1 & ->).
    rewrite <- app_assoc in Hr'.
    unfold s1. rewrite <- !app_assoc. change 1%nat with (length $"(").
    rewrite (radvance_ok _ $"(" (b' ++ t1 ++ b1 ++ $")" ++ r) (past_good _ _ _) (past_rest _ _ _)), trace_ret_bind, past_past.
    rewrite (skip_space_ok _ b' (t1 ++ b1 ++ $")" ++ r) (past_good _ _ _) (past_rest _ _ _) Hb') by (eapply coord_solid; exact Hc). rewrite trace_ret_bind, past_past.
    set (s2 := past s _ _).
    assert (moved s ((b ++ $"(") ++ b') s2) as M1 by (apply moved_past; rewrite Hr', <- !app_assoc; reflexivity).
    destruct (one_coordinate_complete d s2 c t1 (b1 ++ $")" ++ r)) as (e & s3 & T & He & Hd3 & M2);
      [apply past_good|exact Hd|reflexivity|exact Hc|apply blank_word_end; [exact Hb1|apply word_end_close]|].
    pose proof (moved_rest _ _ _ _ M2 (past_rest _ _ _)) as R3. pose proof (moved_good _ _ _ M2) as G3.
    exists e, (past (past s3 b1 ($")" ++ r)) $")" r). split; [|split; [exact He|split; [exact Hd3|]]].
    + rewrite <- trace_bind_assoc. eapply trace_bind_ret; [exact T|]. rewrite (skip_space_ok s3 b1 _ G3 R3 Hb1) by reflexivity. rewrite trace_ret_bind.
      rewrite (assert_char_ok _ chr_close r (past_good _ _ _) (past_rest _ _ _)). reflexivity.
    + rewrite past_past. assert (moved s3 (b1 ++ $")") (past s3 (b1 ++ $")") r)) as M3 by (apply moved_past; rewrite R3, <- app_assoc; reflexivity).
      eapply moved_trans in M3; [|eapply moved_trans; [exact M1|exact M2]]. rewrite <- !app_assoc in M3. exact M3.
Qed.

Lemma read_point_sound d s : good s -> dims_are d s ->
  post (read_point parse s) (fun e s' => exists cs b t, blank b /\ (length cs <= 1)%nat /\ seq_text parse d cs t /\ seq_ev d cs e /\ dims_are d s' /\ moved s (b ++ t) s').
Proof.
  intros Hg Hd. unfold read_point, empty_or. destruct (skip_space_any s Hg) as (b & r1 & E1 & Hb & Hn & ->). rewrite trace_ret_bind.
  rewrite (peek_ok _ (past_good _ _ _)), past_rest, trace_ret_bind. destruct (N.eqb_spec (hd 0%N r1) chr_open) as [Eo|Eo].
  - destruct r1 as [|c r1]; [discriminate Eo|]. cbn in Eo. subst c. change 1%nat with (length $"(").
    rewrite (radvance_ok _ $"(" r1 (past_good _ _ _) (past_rest _ _ _)), trace_ret_bind, past_past.
    destruct (skip_space_any (past s (b ++ $"(") r1) (past_good _ _ _)) as (b' & r2 & E2 & Hb' & Hn2 & ->). rewrite trace_ret_bind, past_past.
    rewrite past_rest in E2. set (s2 := past s _ _).
    assert (moved s ((b ++ $"(") ++ b') s2) as M1 by (apply moved_past; rewrite E1, E2, <- !app_assoc; reflexivity).
    unfold post. rewrite <- trace_bind_assoc.
    match goal with |- match trace ?p with _ => _ end => change (post p (fun e s' => exists cs b t, blank b /\ (length cs <= 1)%nat /\ seq_text parse d cs t /\ seq_ev d cs e /\
      dims_are d s' /\ moved s (b ++ t) s')) end.
    apply post_bind. eapply post_weaken; [apply (one_coordinate_sound d); [apply past_good|exact Hd]|].
    intros e s3 (c & t & Hc & He & Hd3 & M2). pose proof (moved_good _ _ _ M2) as G3. cbv beta.
    destruct (skip_space_any s3 G3) as (b3 & r3 & E3 & Hb3 & Hn3 & ->). rewrite trace_ret_bind.
    destruct (assert_char_any (past s3 b3 r3) chr_close (past_good _ _ _)) as [(r4 & E4 & ->)|[_ ->]]; [|apply post_err].
    apply post_ret. rewrite app_nil_r. exists [c], b, ($"(" ++ b' ++ (t ++ b3) ++ $")"). split; [exact Hb|]. split; [cbn; lia|].
    split; [right; exists b', (t ++ b3); split; [exact Hb'|split; [apply list_text_single; eauto|reflexivity]]|]. split; [exact He|]. split; [exact Hd3|].
    rewrite past_past. rewrite past_rest in E4. assert (moved s3 (b3 ++ $")") (past s3 (b3 ++ $")") r4)) as M3 by (apply moved_past; rewrite E3, E4, <- app_assoc; reflexivity).
    eapply moved_trans in M3; [|eapply moved_trans; [exact M1|exact M2]]. rewrite <- !app_assoc in *. exact M3.
  - destruct (assert_empty_any (past s b r1) (past_good _ _ _)) as [(r & E2 & _ & ->)| ->]; [|apply post_err]. apply post_ret. rewrite past_rest in E2.
    exists [], b, $"EMPTY". split; [exact Hb|]. split; [cbn; lia|]. split; [left; auto|]. split; [split; constructor|]. split; [exact Hd|].
    rewrite past_past. apply moved_past. rewrite E1, E2, <- app_assoc. reflexivity.
Qed.

(** ** Texts in parentheses or EMPTY start with a solid character *)
Lemma empty_or_solid {A} (R : A -> bytes -> Prop) xs t r : empty_or_text R xs t -> no_space (t ++ r).
Proof. intros [[_ ->]|(b' & u & _ & _ & ->)]; reflexivity. Qed.
Lemma moved_solid s b t s' : no_space (r_rest s) -> blank b -> moved s (b ++ t) s' -> b = [].
Proof. intros Hn Hb (E & _). rewrite E, <- app_assoc in Hn. eapply blank_no_space; eassumption. Qed.

(** ** Rings and polygons *)
Definition ring_ev (d : dim) (cs : list coord) (e : list event) : Prop := exists e1, e = [ERingStart] ++ e1 ++ [ERingEnd] /\ seq_ev d cs e1.
Lemma rings_ev_nil d : rings_ev d [] [].
Proof. split; [constructor|apply batches_nil]. Qed.
Lemma rings_ev_snoc d rings cs e e1 : rings_ev d rings e -> ring_ev d cs e1 -> rings_ev d (rings ++ [cs]) (e ++ e1).
Proof.
  intros [He Hb] (e2 & -> & He2 & Hb2). split; [apply ring_events_snoc; assumption|]. apply batches_app; [exact Hb|]. apply batches_wrap; [repeat constructor|exact Hb2].
Qed.

Lemma read_ring_complete d bound : item_complete (seq_text parse d) (ring_ev d) (dims_are d) bound (read_ring parse).
Proof.
  intros cs s t r Hg Hd _ Hr Ht Hw. destruct (read_coordinates_complete d cs s [] t r) as (e & s1 & T & He & Hd1 & M); try assumption; [constructor|].
  exists ([ERingStart] ++ e ++ [ERingEnd]), s1. split; [|split; [exists e; auto|split; [exact Hd1|exact M]]].
  apply trace_emit_bind. eapply trace_bind_ok; [exact T|]. apply trace_emit_bind. reflexivity.
Qed.
Lemma read_ring_sound d bound : item_sound (seq_text parse d) (ring_ev d) (dims_are d) bound (read_ring parse).
Proof.
  intros s Hg Hn Hd _. apply post_emit. apply post_bind. eapply post_weaken; [apply (read_coordinates_sound d); assumption|].
  intros e s1 (cs & b & t & Hb & Ht & He & Hd1 & M). apply post_emit. apply post_ret. exists cs, t. split; [exact Ht|]. split; [exists e; auto|].
  split; [exact Hd1|]. rewrite (moved_solid _ _ _ _ Hn Hb M) in M. exact M.
Qed.

Lemma read_polygon_complete d rings s b t r : good s -> dims_are d s -> blank b -> r_rest s = b ++ t ++ r -> empty_or_text (seq_text parse d) rings t -> word_end r ->
  exists e s', trace (read_polygon parse s) = (e, Ok s') /\ rings_ev d rings e /\ dims_are d s' /\ moved s (b ++ t) s'.
Proof.
  intros Hg Hd Hb Hr Ht Hw. eapply (body_complete (seq_text parse d) (ring_ev d) (rings_ev d) (dims_are d) (length (r_rest s))); try eassumption; try lia.
  - apply rings_ev_nil.
  - apply rings_ev_snoc.
  - apply dims_past.
  - apply read_ring_complete.
  - intros. eapply empty_or_solid. eassumption.
Qed.
Lemma read_polygon_sound d s : good s -> dims_are d s ->
  post (read_polygon parse s) (fun e s' => exists rings b t, blank b /\ empty_or_text (seq_text parse d) rings t /\ rings_ev d rings e /\ dims_are d s' /\ moved s (b ++ t) s').
Proof.
  intros Hg Hd. eapply (body_sound (seq_text parse d) (ring_ev d) (rings_ev d) (dims_are d) (length (r_rest s))); try eassumption; try lia.
  - apply rings_ev_nil.
  - apply rings_ev_snoc.
  - apply dims_past.
  - apply read_ring_sound.
Qed.

(** ** Members without tags *)
Section Member.
Context {X : Type}.
Variable d : dim.
Variable code : N.
Variable mk : X -> geom.
Variable bound : nat.
Variable T : X -> bytes -> Prop.
Variable E : X -> list event -> Prop.
Variable body : rst -> prog rst.
Hypothesis E_geom : forall x e, E x e -> geom_ev (mk x) ([EGeomStart code (dimN d)] ++ e ++ [EGeomEnd]).

Definition member_text (g : geom) (t : bytes) : Prop := exists x, g = mk x /\ T x t.

Lemma read_member_complete :
  (forall x s t r, good s -> dims_are d s -> r_rest s = t ++ r -> T x t -> word_end r ->
     exists e s', trace (body s) = (e, Ok s') /\ E x e /\ dims_are d s' /\ moved s t s') ->
  item_complete member_text geom_ev (dims_are d) bound (read_member code (dimN d) body).
Proof.
  intros H g s t r Hg Hd _ Hr (x & -> & Hx) Hw. destruct (H x s t r) as (e & s1 & T1 & He & Hd1 & M); try assumption.
  exists ([EGeomStart code (dimN d)] ++ e ++ [EGeomEnd]), s1. split; [|split; [apply E_geom; exact He|split; [exact Hd1|exact M]]].
  apply trace_emit_bind. eapply trace_bind_ok; [exact T1|]. apply trace_emit_bind. reflexivity.
Qed.
Lemma read_member_sound :
  (forall s, good s -> dims_are d s -> post (body s) (fun e s' => exists x b t, blank b /\ T x t /\ E x e /\ dims_are d s' /\ moved s (b ++ t) s')) ->
  item_sound member_text geom_ev (dims_are d) bound (read_member code (dimN d) body).
Proof.
  intros H s Hg Hn Hd _. apply post_emit. apply post_bind. eapply post_weaken; [apply H; assumption|].
  intros e s1 (x & b & t & Hb & Ht & He & Hd1 & M). apply post_emit. apply post_ret. exists (mk x), t. split; [exists x; auto|].
  split; [apply E_geom; exact He|]. split; [exact Hd1|]. rewrite (moved_solid _ _ _ _ Hn Hb M) in M. exact M.
Qed.
End Member.

Lemma list_text_ext {A} (R R' : A -> bytes -> Prop) : (forall x t, R x t -> R' x t) -> forall xs t, list_text R xs t -> list_text R' xs t.
Proof.
  intros H xs. induction xs as [|x xs IH]; intros t; [auto|]. intros (t1 & b1 & H1 & Hb & Hm). exists t1, b1. split; [auto|]. split; [exact Hb|].
  destruct xs as [|y xs]; [exact Hm|]. destruct Hm as (b2 & u & Hb2 & Hu & ->). exists b2, u. auto.
Qed.
Lemma empty_or_text_ext {A} (R R' : A -> bytes -> Prop) : (forall x t, R x t -> R' x t) -> forall xs t, empty_or_text R xs t -> empty_or_text R' xs t.
Proof. intros H xs t [[-> ->]|(b & u & Hb & Hu & ->)]; [left; auto|]. right. exists b, u. split; [exact Hb|]. split; [eapply list_text_ext; eassumption|reflexivity]. Qed.

Definition point_body (d : dim) (cs : list coord) (t : bytes) : Prop := (length cs <= 1)%nat /\ seq_text parse d cs t.
Definition points_member (d : dim) := member_text (GPoint d) (point_body d).
Definition lines_member (d : dim) := member_text (GLine d) (seq_text parse d).
Definition polys_member (d : dim) := member_text (GPoly d) (empty_or_text (seq_text parse d)).
Definition flat_member (d : dim) := member_text (fun c => GPoint d [c]) (coord_text parse d).

Lemma point_geom_ev d cs e : seq_ev d cs e -> geom_ev (GPoint d cs) ([EGeomStart 1 (dimN d)] ++ e ++ [EGeomEnd]).
Proof. intros [He Hb]. split; [constructor; exact He|apply batches_wrap; [repeat constructor|exact Hb]]. Qed.
Lemma line_geom_ev d cs e : seq_ev d cs e -> geom_ev (GLine d cs) ([EGeomStart 2 (dimN d)] ++ e ++ [EGeomEnd]).
Proof. intros [He Hb]. split; [constructor; exact He|apply batches_wrap; [repeat constructor|exact Hb]]. Qed.
Lemma poly_geom_ev d rings e : rings_ev d rings e -> geom_ev (GPoly d rings) ([EGeomStart 3 (dimN d)] ++ e ++ [EGeomEnd]).
Proof. intros [He Hb]. split; [constructor; exact He|apply batches_wrap; [repeat constructor|exact Hb]]. Qed.
Lemma coll_geom_ev k d parts e : parts_ev parts e -> geom_ev (GColl k d parts) ([EGeomStart (coll_code k) (dimN d)] ++ e ++ [EGeomEnd]).
Proof. intros [He Hb]. split; [constructor; exact He|apply batches_wrap; [repeat constructor|exact Hb]]. Qed.

Lemma member_solid {X A} (mk : X -> geom) (R : X -> A -> bytes -> Prop) (xs : X -> list A) g t r :
  member_text mk (fun x => empty_or_text (R x) (xs x)) g t -> no_space (t ++ r).
Proof. intros (x & _ & H). eapply empty_or_solid; exact H. Qed.

Definition multi_complete (R : geom -> bytes -> Prop) (d : dim) (p : rst -> prog rst) : Prop :=
  forall parts s b t r, good s -> dims_are d s -> blank b -> r_rest s = b ++ t ++ r -> empty_or_text R parts t -> word_end r ->
  exists e s', trace (p s) = (e, Ok s') /\ parts_ev parts e /\ dims_are d s' /\ moved s (b ++ t) s'.
Definition multi_sound (R : geom -> bytes -> Prop) (d : dim) (p : rst -> prog rst) : Prop :=
  forall s, good s -> dims_are d s ->
  post (p s) (fun e s' => exists parts b t, blank b /\ empty_or_text R parts t /\ parts_ev parts e /\ dims_are d s' /\ moved s (b ++ t) s').

Lemma multi_lines_complete d : multi_complete (lines_member d) d (read_multilinestring parse (dimN d)).
Proof.
  intros parts s b t r Hg Hd Hb Hr Ht Hw.
  eapply (body_complete (lines_member d) geom_ev parts_ev (dims_are d) (length (r_rest s))); try eassumption; try lia.
  - apply parts_ev_nil.
  - apply parts_ev_snoc.
  - apply dims_past.
  - apply read_member_complete with (E := seq_ev d); [apply line_geom_ev|]. intros x s0 t0 r0 Hg0 Hd0 Hr0 Hx Hw0.
    apply (read_coordinates_complete d x s0 [] t0 r0); try assumption. constructor.
  - intros g u r0 (x & _ & H). eapply empty_or_solid; exact H.
Qed.
Lemma multi_lines_sound d : multi_sound (lines_member d) d (read_multilinestring parse (dimN d)).
Proof.
  intros s Hg Hd. eapply (body_sound (lines_member d) geom_ev parts_ev (dims_are d) (length (r_rest s))); try eassumption; try lia.
  - apply parts_ev_nil.
  - apply parts_ev_snoc.
  - apply dims_past.
  - apply read_member_sound with (E := seq_ev d); [apply line_geom_ev|]. intros s0 Hg0 Hd0. apply read_coordinates_sound; assumption.
Qed.
Lemma multi_polys_complete d : multi_complete (polys_member d) d (read_multipolygon parse (dimN d)).
Proof.
  intros parts s b t r Hg Hd Hb Hr Ht Hw.
  eapply (body_complete (polys_member d) geom_ev parts_ev (dims_are d) (length (r_rest s))); try eassumption; try lia.
  - apply parts_ev_nil.
  - apply parts_ev_snoc.
  - apply dims_past.
  - apply read_member_complete with (E := rings_ev d); [apply poly_geom_ev|]. intros x s0 t0 r0 Hg0 Hd0 Hr0 Hx Hw0.
    apply (read_polygon_complete d x s0 [] t0 r0); try assumption. constructor.
  - intros g u r0 (x & _ & H). eapply empty_or_solid; exact H.
Qed.
Lemma multi_polys_sound d : multi_sound (polys_member d) d (read_multipolygon parse (dimN d)).
Proof.
  intros s Hg Hd. eapply (body_sound (polys_member d) geom_ev parts_ev (dims_are d) (length (r_rest s))); try eassumption; try lia.
  - apply parts_ev_nil.
  - apply parts_ev_snoc.
  - apply dims_past.
  - apply read_member_sound with (E := rings_ev d); [apply poly_geom_ev|]. intros s0 Hg0 Hd0. apply read_polygon_sound; assumption.
Qed.

(** ** Multipoints *)
Lemma flat_point_complete d bound : item_complete (flat_member d) geom_ev (dims_are d) bound (flat_point parse (dimN d)).
Proof.
  intros g s t r Hg Hd _ Hr (c & -> & Hc) Hw. destruct (one_coordinate_complete d s c t r) as (e & s1 & T1 & He & Hd1 & M); try assumption.
  exists ([EGeomStart 1 (dimN d)] ++ e ++ [EGeomEnd]), s1. split; [|split; [apply point_geom_ev; exact He|split; [exact Hd1|exact M]]].
  apply trace_emit_bind. rewrite <- trace_bind_assoc. eapply trace_bind_ok; [exact T1|]. apply trace_emit_bind. reflexivity.
Qed.
Lemma flat_point_sound d bound : item_sound (flat_member d) geom_ev (dims_are d) bound (flat_point parse (dimN d)).
Proof.
  intros s Hg Hn Hd _. apply post_emit. unfold post. rewrite <- trace_bind_assoc.
  match goal with |- match trace ?p with (e, _) => _ end => change (post p (fun e s' => exists x t, flat_member d x t /\ geom_ev x (EGeomStart 1 (dimN d) :: e) /\ dims_are d s' /\ moved s t s')) end.
  apply post_bind. eapply post_weaken; [apply (one_coordinate_sound d); assumption|].
  intros e s1 (c & t & Ht & He & Hd1 & M). apply post_emit. apply post_ret. exists (GPoint d [c]), t. split; [exists c; auto|].
  split; [apply point_geom_ev; exact He|]. split; [exact Hd1|exact M].
Qed.
End Parser.
