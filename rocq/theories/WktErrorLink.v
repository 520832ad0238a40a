From Verif Require Import Base BaseFacts Text GeomSpec VisitorModel VisitorSpec VisitorFacts WktSpec WktReaderModel WktGrammar WktReaderFacts WktReaderGeoms WktErrorModel WktErrorSpec WktErrorProofs WktErrorTagged WktErrorVisit.
Local Open Scope N_scope.

(** [m] goes on where [f] does, and fails where [f] does. *)
Definition inv (nv : option N) (s : rst) : Prop := good s /\ match nv with Some n => r_nvals s = n | None => True end.
Definition sim_at (nv : option N) (x : reading) (o : outcome rst) : Prop :=
  match o with
  | Ok s' => inv nv s' /\ x = Got (r_rest s')
  | Err e => exists w r, x = Bad w r
  | _ => True
  end.
Definition sim (nv : option N) (m : rst -> prog rst) (f : bytes -> reading) : Prop := forall s, inv nv s -> sim_at nv (f (r_rest s)) (snd (trace (m s))).

Lemma sim_bind nv m k f g : sim nv m f -> sim nv k g -> sim nv (fun s => pbind (m s) k) (chain f g).
Proof.
  intros Hm Hk s Hs. specialize (Hm s Hs). rewrite trace_bind. unfold chain. destruct (trace (m s)) as [e1 [s'|c| |]]; cbn [snd] in Hm |- *; try exact I.
  - destruct Hm as [Hs' ->]. specialize (Hk s' Hs'). destruct (trace (k s')) as [e2 o]. exact Hk.
  - destruct Hm as (w & r & ->). exists w, r. reflexivity.
Qed.
Lemma sim_emit nv e (k : rst -> prog rst) f : sim nv k f -> sim nv (fun s => pbind (emit e) (fun _ => k s)) f.
Proof. intros H s Hs. specialize (H s Hs). unfold emit. cbn [pbind trace]. change (0 =? 0)%Z with true. cbn [pbind]. destruct (trace (k s)) as [e2 o]. exact H. Qed.
Lemma chain_got f t : chain f Got t = f t.
Proof. unfold chain. destruct (f t); reflexivity. Qed.
Lemma sim_ext nv m m' f f' : (forall s, m s = m' s) -> (forall t, f t = f' t) -> sim nv m' f' -> sim nv m f.
Proof. intros Hm Hf H s Hs. rewrite Hm, Hf. apply H. exact Hs. Qed.
Lemma sim_same nv m f : sim nv m f -> sim nv (fun s => let! s := m s in Ret (Ok s)) f.
Proof.
  intros H. apply (sim_ext nv _ (fun s => pbind (m s) (fun s => Ret (Ok s))) f (chain f Got)); [reflexivity|intros t; symmetry; apply chain_got|].
  apply sim_bind; [exact H|]. intros s Hs. split; [exact Hs|reflexivity].
Qed.

Lemma inv_past nv s t r : inv nv s -> inv nv (past s t r).
Proof. intros [_ H]. split; [apply past_good|destruct nv; [exact H|exact I]]. Qed.
Lemma sim_skip nv : sim nv (fun s => Ret (skip_space s)) e_skip.
Proof.
  intros s Hs. destruct (skip_space_any s (proj1 Hs)) as (b & r & E & Hb & Hr & ->). cbn [trace snd sim_at]. split; [apply inv_past; exact Hs|].
  unfold e_skip. rewrite E, (skipped_ok b r Hb Hr). reflexivity.
Qed.
Lemma sim_char nv c : sim nv (fun s => Ret (assert_char s c)) (e_char c).
Proof.
  intros s Hs. pose proof (proj1 Hs) as Hg. unfold good in Hg. unfold assert_char. cbn [trace snd]. rewrite Hg. destruct (r_rest s) as [|x r] eqn:E; cbn [length e_char].
  - cbn. do 2 eexists. reflexivity.
  - destruct (Z.ltb_spec 0 (Z.of_nat (S (length r)))); [|lia]. cbn [obind]. destruct (x =? c); [|cbn; do 2 eexists; reflexivity].
    pose proof (radvance_ok s [x] r (proj1 Hs) E) as A. cbn [length] in A. rewrite A. split; [apply inv_past; exact Hs|reflexivity].
Qed.
Lemma sim_space nv s : inv nv s -> sim_at nv (e_space (r_rest s)) (assert_space s).
Proof.
  intros Hs. pose proof (proj1 Hs) as Hg. unfold good in Hg. unfold assert_space. rewrite Hg. pose proof (sim_skip nv s Hs) as K. destruct (r_rest s) as [|x r] eqn:E; cbn [length e_space].
  - cbn. do 2 eexists. reflexivity.
  - destruct (Z.ltb_spec 0 (Z.of_nat (S (length r)))); [|lia]. cbn [obind]. destruct (is_space x); [exact K|cbn; do 2 eexists; reflexivity].
Qed.
Lemma sim_empty nv : sim nv (fun s => Ret (assert_empty s)) e_empty.
Proof.
  intros s Hs. unfold assert_empty. cbn [trace snd]. destruct (peek_word_any s 6 (proj1 Hs)) as (t & r & E & Ht & Hr & Ew). change (Z.of_nat 6) with 6%Z in Ew. rewrite Ew. cbn [obind].
  unfold e_empty, word_upto. rewrite E, (word_at_ok t r Ht Hr). destruct (word_is (firstn 6 t) $"EMPTY") eqn:Ei; [|cbn; do 2 eexists; reflexivity].
  apply word_is_spec in Ei. apply firstn_short in Ei; [|vm_compute; lia]. subst t. pose proof (radvance_ok s $"EMPTY" r (proj1 Hs) E) as A. change (length $"EMPTY") with 5%nat in A. rewrite A. split; [apply inv_past; exact Hs|reflexivity].
Qed.

Section Parser.
Variable parse : bytes -> option N.

Lemma sim_ordinate nv s : inv nv s -> match read_ordinate parse s with
  | Ok (_, s') => inv nv s' /\ e_ordinate parse (r_rest s) = Got (r_rest s') | Err _ => exists w r, e_ordinate parse (r_rest s) = Bad w r | _ => True end.
Proof.
  intros Hs. pose proof (proj1 Hs) as Hg. unfold good in Hg. unfold read_ordinate. destruct (span_word (r_rest s)) as (t & r & E & Ht & Hr). rewrite Hg, E, (until_sep_ok t r Ht Hr). cbn [obind].
  rewrite (radvance_ok s t r (proj1 Hs) E). cbn [obind]. unfold e_ordinate. rewrite (word_at_ok t r Ht Hr), firstn_app, firstn_all, Nat.sub_diag. cbn [firstn]. rewrite app_nil_r.
  destruct (parse t); [|do 2 eexists; reflexivity]. split; [apply inv_past; exact Hs|]. rewrite skipn_exact. reflexivity.
Qed.
Lemma sim_ordinates nv k : forall s, inv nv s -> match read_ordinates parse k s with
  | Ok (_, s') => inv nv s' /\ e_ordinates parse k (r_rest s) = Got (r_rest s') | Err _ => exists w r, e_ordinates parse k (r_rest s) = Bad w r | _ => True end.
Proof.
  induction k as [|k IH]; intros s Hs; cbn [read_ordinates e_ordinates]; [split; [exact Hs|reflexivity]|].
  unfold chain. pose proof (sim_space nv s Hs) as H1. destruct (assert_space s) as [s1|c| |]; cbn [obind sim_at] in *; try exact I; [|destruct H1 as (w & r & ->); eauto].
  destruct H1 as [Hs1 ->]. pose proof (sim_ordinate nv s1 Hs1) as H2. destruct (read_ordinate parse s1) as [[x s2]|c| |]; cbn [obind] in *; try exact I; [|destruct H2 as (w & r & ->); eauto].
  destruct H2 as [Hs2 ->]. specialize (IH s2 Hs2). destruct (read_ordinates parse k s2) as [[ws s3]|c| |]; cbn [obind]; try exact I; exact IH.
Qed.
Lemma inv_cache nv s c : inv nv s -> inv nv (rset_cache s c).
Proof. intros H. exact H. Qed.
Lemma sim_flush nv : sim nv flush_cache Got.
Proof. intros s Hs. unfold flush_cache. destruct (r_cache s) as [[|c cs]|]; [split; [exact Hs|reflexivity]|split; [apply inv_cache; exact Hs|reflexivity]|exact I]. Qed.
Lemma sim_coordinate nv : sim (Some nv) (read_coordinate parse) (e_coordinate parse (N.to_nat nv - 1)).
Proof.
  intros s Hs. unfold read_coordinate. destruct (r_cache s) as [cs|] eqn:Ec; cbn [or_ub pbind]; [|exact I].
  assert (sim (Some nv) (fun s => pbind (Ret (read_ordinate parse s)) (fun '(w, s) => pbind (Ret (read_ordinates parse (N.to_nat (r_nvals s) - 1) s)) (fun '(ws, s) =>
     let! cs := Ret (or_ub (r_cache s)) in if (COORD_CACHE_SIZE_COORDS <=? length cs)%nat then Ret UB else Ret (Ok (rset_cache s (cs ++ [w :: ws]))))))
     (e_coordinate parse (N.to_nat nv - 1))) as K.
  { clear. intros s Hs. unfold e_coordinate, chain. pose proof (sim_ordinate _ s Hs) as H1. destruct (read_ordinate parse s) as [[x s1]|c| |]; cbn [pbind]; try exact I; [|destruct H1 as (w & r & ->); cbn; do 2 eexists; reflexivity].
    destruct H1 as [Hs1 ->]. rewrite (proj2 Hs1). pose proof (sim_ordinates _ (N.to_nat nv - 1) s1 Hs1) as H2.
    destruct (read_ordinates parse _ s1) as [[ws s2]|c| |]; cbn [pbind]; try exact I; [|destruct H2 as (w & r & ->); cbn; do 2 eexists; reflexivity].
    destruct H2 as [Hs2 ->]. destruct (r_cache s2); cbn [or_ub pbind]; [|exact I]. destruct (_ <=? _)%nat; [exact I|]. split; [apply inv_cache; exact Hs2|reflexivity]. }
  destruct (length cs =? COORD_CACHE_SIZE_COORDS)%nat.
  - apply (sim_ext (Some nv) (fun s => pbind (flush_cache s) _) _ _ (chain Got (e_coordinate parse (N.to_nat nv - 1))) (fun _ => eq_refl) (fun _ => eq_refl) (sim_bind _ _ _ _ _ (sim_flush _) K)). exact Hs.
  - exact (K s Hs).
Qed.

(** The loop leaves the parenthesis to the step after it. *)
Definition e_step (t : bytes) : reading := Got (skipn 1 t).
Lemma sim_step nv s : inv nv s -> hd 0 (r_rest s) = chr_close -> sim_at nv (Got (skipn 1 (r_rest s))) (radvance s 1).
Proof.
  intros Hs E. destruct (r_rest s) as [|x r] eqn:Er; [discriminate E|]. pose proof (radvance_ok s [x] r (proj1 Hs) Er) as A. cbn [length] in A. rewrite A. split; [apply inv_past; exact Hs|reflexivity].
Qed.
Lemma sim_more nv item f : sim nv item f -> forall n k, (forall s, inv nv s -> hd 0 (r_rest s) = chr_close -> sim_at nv (Got (skipn 1 (r_rest s))) (snd (trace (k s)))) ->
  sim nv (fun s => pbind (more_items n item s) k) (e_more n f).
Proof.
  intros Hi. induction n as [|n IH]; intros k Hk s Hs; cbn [more_items e_more]; rewrite (peek_ok s (proj1 Hs)); cbn [pbind]; (destruct (N.eqb_spec (hd 0 (r_rest s)) chr_close) as [E|E]; [cbn [pbind]; apply Hk; assumption|]).
  - exact I.
  - assert (sim nv (fun s => let! s := Ret (skip_space s) in let! s := Ret (assert_char s chr_comma) in let! s := Ret (skip_space s) in let! s := item s in
      let! s := Ret (skip_space s) in pbind (more_items n item s) k) (chain e_skip (chain (e_char chr_comma) (chain e_skip (chain f (chain e_skip (e_more n f))))))) as K.
    { apply (sim_bind nv (fun s => Ret (skip_space s))); [apply sim_skip|]. apply (sim_bind nv (fun s => Ret (assert_char s chr_comma))); [apply sim_char|].
      apply (sim_bind nv (fun s => Ret (skip_space s))); [apply sim_skip|]. apply (sim_bind nv item); [exact Hi|]. apply (sim_bind nv (fun s => Ret (skip_space s))); [apply sim_skip|]. apply IH. exact Hk. }
    specialize (K s Hs). revert K. generalize (chain e_skip (chain (e_char chr_comma) (chain e_skip (chain f (chain e_skip (e_more n f))))) (r_rest s)). intros x K.
    match goal with |- sim_at _ _ (snd (trace ?p)) => match type of K with sim_at _ _ (snd (trace ?q)) => assert (trace p = trace q) as ->; [|exact K] end end.
    clear. destruct (skip_space s) as [s1|? | |]; cbn [pbind]; try reflexivity. destruct (assert_char s1 chr_comma) as [s2|? | |]; cbn [pbind]; try reflexivity.
    destruct (skip_space s2) as [s3|? | |]; cbn [pbind]; try reflexivity. rewrite !trace_bind. destruct (trace (item s3)) as [e [s4|? | |]]; try reflexivity.
    cbn [pbind]. destruct (skip_space s4) as [s5|? | |]; cbn [pbind]; try reflexivity. rewrite trace_bind.
    destruct (trace (more_items n item s5)) as [e5 [s6|? | |]]; cbn; rewrite ?app_nil_r; try reflexivity. destruct (trace (k s6)). rewrite app_assoc. reflexivity.
Qed.

Lemma sim_items nv item f : sim nv item f -> sim nv (read_items item) (e_items f).
Proof.
  intros H. apply (sim_bind nv item); [exact H|]. apply (sim_bind nv (fun s => Ret (skip_space s))); [apply sim_skip|].
  intros s Hs. unfold e_rest, items_fuel. refine (sim_more nv item f H (S (length (r_rest s))) (fun s => Ret (radvance s 1)) _ s Hs). intros s' Hs' E. exact (sim_step nv s' Hs' E).
Qed.
Lemma sim_empty_or nv list l : sim nv list l -> sim nv (empty_or list) (chain e_skip (e_paren l)).
Proof.
  intros H. apply (sim_bind nv (fun s => Ret (skip_space s))); [apply sim_skip|]. intros s Hs. rewrite (peek_ok s (proj1 Hs)). cbn [pbind]. unfold e_paren.
  destruct (hd 0 (r_rest s) =? chr_open) eqn:E; [|exact (sim_empty nv s Hs)]. destruct (hd_eqb 40 _ ltac:(discriminate) E) as [r Er]. rewrite Er.
  pose proof (radvance_ok s [40] r (proj1 Hs) Er) as A. cbn [length] in A. rewrite A. cbn [pbind]. change (skipn 1 (40 :: r)) with r.
  exact (sim_bind nv (fun s => Ret (skip_space s)) list e_skip l (sim_skip nv) H (past s [40] r) (inv_past _ _ _ _ Hs)).
Qed.

Lemma sim_reset nv m f : sim nv m f -> sim nv (fun s => m (reset_cache s)) f.
Proof. intros H s Hs. exact (H (reset_cache s) (inv_cache nv s [] Hs)). Qed.
Lemma sim_coordinates nv : sim (Some nv) (read_coordinates parse) (chain e_skip (e_coordinates parse (N.to_nat nv - 1))).
Proof.
  apply sim_empty_or. apply (sim_bind (Some nv) (fun s => read_coordinate parse (reset_cache s))); [apply sim_reset, sim_coordinate|].
  apply (sim_bind (Some nv) (fun s => Ret (skip_space s))); [apply sim_skip|]. intros s Hs. unfold e_rest, items_fuel.
  refine (sim_more (Some nv) _ _ (sim_coordinate nv) (S (length (r_rest s))) (fun s => let! s := flush_cache s in Ret (radvance s 1)) _ s Hs).
  intros s' Hs' E. pose proof (sim_flush (Some nv) s' Hs') as F. rewrite trace_bind. destruct (trace (flush_cache s')) as [e [s2|c| |]]; cbn [snd sim_at] in F |- *; try exact I.
  - destruct F as [Hs2 F]. injection F as F. rewrite F in *. pose proof (sim_step _ s2 Hs2 E) as G. destruct (trace (Ret (radvance s2 1))) eqn:T. cbn [trace] in T. injection T as <- <-. exact G.
  - destruct F as (w & r & F). discriminate F.
Qed.
Lemma sim_point nv : sim (Some nv) (read_point parse) (chain e_skip (e_point parse (N.to_nat nv - 1))).
Proof.
  apply sim_empty_or. apply (sim_bind (Some nv) (fun s => read_coordinate parse (reset_cache s))); [apply sim_reset, sim_coordinate|].
  apply (sim_bind (Some nv) flush_cache _ Got (chain e_skip (e_char chr_close))); [apply sim_flush|].
  apply (sim_bind (Some nv) (fun s => Ret (skip_space s))); [apply sim_skip|]. apply sim_char.
Qed.
Lemma sim_emitted nv m f e : sim nv m f -> sim nv (fun s => let! s := m s in run! emit e in Ret (Ok s)) f.
Proof.
  intros H. apply (sim_ext nv _ _ f (chain f Got) (fun s => eq_refl) (fun t => eq_sym (chain_got f t))). apply sim_bind; [exact H|].
  apply (sim_emit nv e (fun s => Ret (Ok s))). intros s Hs. split; [exact Hs|reflexivity].
Qed.
Lemma sim_ring nv : sim (Some nv) (read_ring parse) (chain e_skip (e_coordinates parse (N.to_nat nv - 1))).
Proof. apply sim_emit, sim_emitted, sim_coordinates. Qed.
Lemma sim_member nv t d body f : sim nv body f -> sim nv (read_member t d body) f.
Proof. intros H. apply sim_emit, sim_emitted, H. Qed.
Lemma sim_polygon nv : sim (Some nv) (read_polygon parse) (chain e_skip (e_polygon parse (N.to_nat nv - 1))).
Proof. apply sim_empty_or, sim_items, sim_ring. Qed.
Lemma sim_multilinestring nv d : sim (Some nv) (read_multilinestring parse d) (chain e_skip (e_multilinestring parse (N.to_nat nv - 1))).
Proof. apply sim_empty_or, sim_items, sim_member, sim_coordinates. Qed.
Lemma sim_multipolygon nv d : sim (Some nv) (read_multipolygon parse d) (chain e_skip (e_multipolygon parse (N.to_nat nv - 1))).
Proof. apply sim_empty_or, sim_items, sim_member, sim_polygon. Qed.
Lemma sim_flat_point nv d : sim (Some nv) (flat_point parse d) (e_coordinate parse (N.to_nat nv - 1)).
Proof.
  apply sim_emit. apply (sim_ext _ _ _ _ (chain (e_coordinate parse (N.to_nat nv - 1)) Got) (fun s => eq_refl) (fun t => eq_sym (chain_got _ t))).
  apply (sim_bind (Some nv) (fun s => read_coordinate parse (reset_cache s))); [apply sim_reset, sim_coordinate|]. apply sim_emitted, sim_flush.
Qed.
Lemma skipn_back (p : bytes) x r : skipn (length (p ++ x :: r) - S (length r)) (p ++ x :: r) = x :: r.
Proof. rewrite app_length. cbn [length]. replace (length p + S (length r) - S (length r))%nat with (length p) by lia. apply skipn_exact. Qed.
Lemma sim_multipoint nv d : sim (Some nv) (read_multipoint parse d) (chain e_skip (e_multipoint parse (N.to_nat nv - 1))).
Proof.
  apply (sim_bind (Some nv) (fun s => Ret (skip_space s))); [apply sim_skip|]. intros s Hs. rewrite (peek_ok s (proj1 Hs)). cbn [pbind]. unfold e_multipoint, e_paren.
  destruct (hd 0 (r_rest s) =? chr_open) eqn:E; [|exact (sim_empty _ s Hs)]. destruct (hd_eqb 40 _ ltac:(discriminate) E) as [r Er]. rewrite Er.
  pose proof (radvance_ok s [40] r (proj1 Hs) Er) as A. cbn [length] in A. rewrite A. cbn [pbind]. change (skipn 1 (40 :: r)) with r.
  destruct (skip_space_any (past s [40] r) (past_good _ _ _)) as (b & t2 & Erb & Hb & H2 & ->). cbn [pbind]. rewrite past_rest in Erb. subst r. rewrite (skipped_ok b t2 Hb H2).
  set (s2 := past (past s [40] (b ++ t2)) b t2). assert (inv (Some nv) s2) as Hs2 by (apply inv_past, inv_past; exact Hs).
  rewrite (peek_ok s2 (proj1 Hs2)). cbn [pbind]. change (r_rest s2) with t2.
  assert (negb (hd 0 t2 =? chr_open) && negb (hd 0 t2 =? chr_E) = negb ((hd 0 t2 =? chr_open) || (hd 0 t2 =? chr_E))) as -> by (rewrite negb_orb; reflexivity).
  destruct ((hd 0 t2 =? chr_open) || (hd 0 t2 =? chr_E)); cbn [negb].
  - exact (sim_items (Some nv) _ _ (sim_member _ 1 d _ _ (sim_point nv)) s2 Hs2).
  - destruct (exists_last (l := [40] ++ b) ltac:(discriminate)) as (p & x & Ep).
    assert (r_before s2 = x :: rev p ++ r_before s) as Eb by (unfold s2; cbn [past rmove r_before]; rewrite app_assoc, <- rev_app_distr, Ep, rev_app_distr; reflexivity).
    change (40 :: b ++ t2) with (([40] ++ b) ++ t2). rewrite Ep, <- app_assoc. cbn [app]. rewrite skipn_back.
    unfold step_back. rewrite Eb. cbn [pbind]. change (r_rest s2) with t2.
    refine (sim_bind (Some nv) (fun s => Ret (assert_char s chr_open)) _ _ _ (sim_char _ _) (sim_items _ _ _ (sim_flat_point nv d)) (rmove s2 (rev p ++ r_before s) (x :: t2) (r_size s2 + 1)) _).
    split; [|exact (proj2 Hs2)]. unfold good. cbn [rmove r_size r_rest length]. pose proof (proj1 Hs2) as G. unfold good in G. change (r_rest s2) with t2 in G. lia.
Qed.

(** ** Tagged geometries *)

Lemma sim_at_none nv x o : sim_at nv x o -> sim_at None x o.
Proof. destruct o; try exact (fun H => H). intros [[H _] E]. split; [split; [exact H|exact I]|exact E]. Qed.
Lemma sim_none nv m f s : sim (Some nv) m f -> good s -> r_nvals s = nv -> sim_at None (f (r_rest s)) (snd (trace (m s))).
Proof. intros H Hg Hn. apply (sim_at_none (Some nv)). apply H. split; [exact Hg|exact Hn]. Qed.
Lemma at_emit nv x e k : sim_at nv x (snd (trace k)) -> sim_at nv x (snd (trace (run! emit e in k))).
Proof. unfold emit. cbn [pbind trace]. change (0 =? 0)%Z with true. cbn [pbind]. destruct (trace k) as [e2 o]. exact (fun H => H). Qed.
Lemma at_emitted nv x e p : sim_at nv x (snd (trace p)) -> sim_at nv x (snd (trace (let! s := p in run! emit e in Ret (Ok s)))).
Proof. rewrite trace_bind. destruct (trace p) as [e2 [s|c| |]]; exact (fun H => H). Qed.
Lemma sim_tagged fuel : sim None (read_tagged parse fuel) (e_tagged parse fuel).
Proof.
  induction fuel as [|f IH]; intros s [Hs _]; [exact I|]. cbn [read_tagged e_tagged].
  destruct (skip_space_any s Hs) as (b0 & t0 & E0 & Hb0 & Hs0 & ->). cbn [pbind]. rewrite E0, (skipped_ok b0 t0 Hb0 Hs0). set (s1 := past s b0 t0).
  destruct (peek_word_any s1 19 (past_good _ _ _)) as (w & r0 & Er0 & Hw & Hr0 & Ew). change (r_rest s1) with t0 in Er0. change (Z.of_nat 19) with 19%Z in Ew. rewrite Ew. cbn [pbind].
  assert (word_upto 19 t0 = firstn 19 w) as Eu by (unfold word_upto; rewrite Er0, (word_at_ok w r0 Hw Hr0); reflexivity). rewrite Eu.
  destruct (type_of_word (firstn 19 w)) as [ty|] eqn:Ety; [|cbn; do 2 eexists; reflexivity].
  destruct (type_upto _ _ Ety) as [E19 Hin]. rewrite E19.
  rewrite (radvance_ok s1 w r0 (past_good _ _ _) Er0). cbn [pbind]. rewrite Er0, skipn_exact.
  destruct (skip_space_any (past s1 w r0) (past_good _ _ _)) as (b1 & t1 & E1 & Hb1 & Hs1 & ->). rewrite past_rest in E1. cbn [pbind]. rewrite E1, (skipped_ok b1 t1 Hb1 Hs1).
  set (s2 := past (past s1 w (b1 ++ t1)) b1 t1).
  destruct (peek_word_any s2 3 (past_good _ _ _)) as (w2 & r2 & Er2 & Hw2 & Hr2 & Ew2). change (r_rest s2) with t1 in Er2. change (Z.of_nat 3) with 3%Z in Ew2.
  match goal with |- context[peek_word ?x 3] => change x with s2 end. rewrite Ew2. cbn [pbind].
  assert (word_upto 3 t1 = firstn 3 w2) as Eu2 by (unfold word_upto; rewrite Er2, (word_at_ok w2 r2 Hw2 Hr2); reflexivity). rewrite Eu2.
  assert (exists d nv k x y, dims_of_word (firstn 3 w2) = (d, nv, k) /\ t1 = x ++ y /\ k = length x) as (d & nv & k & x & y & Ed & Exy & Ek).
  { destruct (dims_cases w2) as [(_ & d & n & H)|H]; [exists d, n, (length w2), w2, r2|exists 1, 2, 0%nat, [], t1]; auto. }
  rewrite Ed. subst k. rewrite (radvance_ok (rset_nvals s2 nv) x y (past_good _ _ _) Exy). cbn [pbind]. rewrite Exy, skipn_exact.
  set (s3 := past (rset_nvals s2 nv) x y). assert (good s3) as Hg3 by apply past_good. assert (r_nvals s3 = nv) as Hn3 by reflexivity.
  apply at_emit, at_emitted. unfold e_body.
  destruct (ty =? 1); [exact (sim_none nv _ _ s3 (sim_point nv) Hg3 Hn3)|]. destruct (ty =? 2); [exact (sim_none nv _ _ s3 (sim_coordinates nv) Hg3 Hn3)|].
  destruct (ty =? 3); [exact (sim_none nv _ _ s3 (sim_polygon nv) Hg3 Hn3)|]. destruct (ty =? 4); [exact (sim_none nv _ _ s3 (sim_multipoint nv d) Hg3 Hn3)|].
  destruct (ty =? 5); [exact (sim_none nv _ _ s3 (sim_multilinestring nv d) Hg3 Hn3)|]. destruct (ty =? 6); [exact (sim_none nv _ _ s3 (sim_multipolygon nv d) Hg3 Hn3)|].
  exact (sim_empty_or None _ _ (sim_items None _ _ IH) s3 (conj Hg3 I)).
Qed.

(** ** Visits *)

Lemma visit_link s0 src : match snd (trace (wkt_visit parse s0 src)) with
  | Ok _ => exists q, e_visit parse src = Got q | Err _ => exists w r, e_visit parse src = Bad w r | _ => True end.
Proof.
  unfold wkt_visit, e_visit, chain. set (s := rmove s0 [] src (Z.of_nat (length src))). pose proof (sim_tagged (S (length src)) s (conj eq_refl I)) as T. change (r_rest s) with src in T.
  unfold emit at 1. cbn [pbind trace]. change (0 =? 0)%Z with true. cbn [pbind]. rewrite trace_bind. destruct (trace (read_tagged parse (S (length src)) s)) as [e1 [s1|c| |]]; cbn [snd sim_at] in T |- *; try exact I.
  - destruct T as [[Hg _] ->]. cbn [pbind trace]. change (0 =? 0)%Z with true. cbn [pbind].
    destruct (skip_space_any s1 Hg) as (b & r & Er & Hb & Hr & ->). cbn [pbind]. rewrite (peek_ok _ (past_good _ _ _)), past_rest. cbn [pbind]. rewrite Er. unfold e_skip. rewrite (skipped_ok b r Hb Hr).
    unfold e_end. destruct (hd 0 r =? 0); cbn; eexists; [reflexivity|eexists; reflexivity].
  - destruct T as (w & r & ->). exists w, r. reflexivity.
Qed.
Lemma visit_ok s0 src : snd (trace (wkt_visit parse s0 src)) = Ok tt <-> exists q, e_visit parse src = Got q.
Proof.
  pose proof (visit_link s0 src) as L. destruct (wkt_visit_ends parse s0 src) as [E|E]; rewrite E in *; split; auto; [discriminate|]. intros [q Eq]. destruct L as (w & r & L). congruence.
Qed.
Lemma visit_bad s0 src : snd (trace (wkt_visit parse s0 src)) = Err EINVAL <-> exists w r, e_visit parse src = Bad w r.
Proof.
  pose proof (visit_link s0 src) as L. destruct (wkt_visit_ends parse s0 src) as [E|E]; rewrite E in *; split; auto; [discriminate|]. intros (w & r & Eq). destruct L as [q L]. congruence.
Qed.
End Parser.
