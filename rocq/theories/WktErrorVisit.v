From Verif Require Import Base BaseFacts Text GeomSpec VisitorModel WktSpec WktReaderModel WktGrammar WktReaderFacts WktErrorModel WktErrorSpec WktErrorProofs WktErrorTagged.
Local Open Scope N_scope.

(** ** Tags *)

Lemma type_named w ty : type_of_word w = Some ty -> In w type_names.
Proof.
  unfold type_of_word, type_names. repeat match goal with |- context[word_is w ?x] => destruct (word_is w x) eqn:? end; intros H; try discriminate H;
    match goal with E : word_is w ?x = true |- _ => apply word_is_spec in E; subst w end; cbn [In]; auto 10.
Qed.
Lemma named_type w : In w type_names -> exists ty, type_of_word w = Some ty.
Proof. unfold type_names. cbn [In]. intros H. repeat destruct H as [<-|H]; try (eexists; reflexivity). destruct H. Qed.
Lemma name_short w : In w type_names -> (length w < 19)%nat /\ w <> [] /\ plain w.
Proof.
  unfold type_names. cbn [In]. intros H.
  repeat destruct H as [<-|H]; try (split; [vm_compute; lia|]; split; [discriminate|]; repeat constructor; intros Z; cbn in Z; repeat destruct Z as [Z|Z]; try discriminate Z; exact Z).
  destruct H.
Qed.
Lemma type_upto w ty : type_of_word (firstn 19 w) = Some ty -> firstn 19 w = w /\ In w type_names.
Proof.
  intros H. apply type_named in H. assert (firstn 19 w = w) as E.
  { symmetry. eapply firstn_short; [reflexivity|]. apply name_short. exact H. }
  rewrite E in H. auto.
Qed.

Definition starts_empty (t : bytes) : Prop := exists r, t = $"EMPTY" ++ r.
(** Texts that the same tag may precede. *)
Definition alike (t t' : bytes) : Prop := same_start t t' \/ hd_error t' = Some 40 \/ (starts_empty t /\ starts_empty t').
Lemma alike_no_space t t' : alike t t' -> no_space t -> no_space t'.
Proof.
  intros [H|[H|[_ [r ->]]]] Hs; [exact (hd_no_space _ _ (same_start_hd _ _ H) Hs)| |reflexivity]. destruct t'; [exact I|]. injection H as ->. reflexivity.
Qed.
Lemma alike_word_end t t' : alike t t' -> word_end t -> word_end t'.
Proof.
  intros [H|[H|[[r ->] _]]] He; [exact (hd_word_end _ _ (same_start_hd _ _ H) He)| |].
  - destruct t'; [exact I|]. injection H as ->. right. cbn. auto 10.
  - exfalso. cbn in He. repeat destruct He as [He|He]; try discriminate He; exact He.
Qed.
Lemma app_word_end b t t' : blank b -> alike t t' -> word_end (b ++ t) -> word_end (b ++ t').
Proof. intros Hb Ha He. destruct b as [|x b]; [exact (alike_word_end t t' Ha He)|exact He]. Qed.

Lemma dims_cases w : (In w [$"Z"; $"M"; $"ZM"] /\ exists d n, dims_of_word (firstn 3 w) = (d, n, length w)) \/ dims_of_word (firstn 3 w) = (1, 2, 0%nat).
Proof.
  unfold dims_of_word. destruct (word_is (firstn 3 w) $"Z") eqn:E1; [|destruct (word_is (firstn 3 w) $"M") eqn:E2; [|destruct (word_is (firstn 3 w) $"ZM") eqn:E3; [|right; reflexivity]]]; left;
    match goal with E : word_is _ _ = true |- _ => apply word_is_spec in E; apply firstn_short in E; [subst w|vm_compute; lia] end; (split; [cbn [In]; auto|]); do 2 eexists; reflexivity.
Qed.
Lemma dims_word w : In w [$"Z"; $"M"; $"ZM"] -> exists c w', w = c :: w' /\ ~ ends_word c /\ is_space c = false.
Proof.
  cbn [In]. intros H. repeat destruct H as [<-|H]; try (do 2 eexists; split; [reflexivity|]; split; [intros Z; cbn in Z; repeat destruct Z as [Z|Z]; try discriminate Z; exact Z|reflexivity]). destruct H.
Qed.

Definition header (t : bytes) : option (N * nat * bytes) :=
  let t0 := skipped t in
  match type_of_word (word_upto 19 t0) with
  | None => None
  | Some ty =>
      let t1 := skipped (skipn (length (word_upto 19 t0)) t0) in
      let '(_, n_values, k) := dims_of_word (word_upto 3 t1) in
      Some (ty, (N.to_nat n_values - 1)%nat, skipped (skipn k t1))
  end.
Lemma skipn_exact {A} (a b : list A) : skipn (length a) (a ++ b) = b.
Proof. rewrite skipn_app, skipn_all, Nat.sub_diag. reflexivity. Qed.
Lemma header_ok b0 w b1 t1 ty d n k : blank b0 -> In w type_names -> type_of_word w = Some ty -> word_end (b1 ++ t1) -> blank b1 -> no_space t1 ->
  dims_of_word (firstn 3 (word_at t1)) = (d, n, k) -> header (b0 ++ w ++ b1 ++ t1) = Some (ty, (N.to_nat n - 1)%nat, skipped (skipn k t1)).
Proof.
  intros Hb0 Hw Ht He Hb1 Hs Hd. destruct (name_short w Hw) as (Hl & Hn & Hp). unfold header, word_upto. rewrite (skipped_ok b0) by (auto using plain_no_space).
  rewrite (word_at_ok w _ Hp He), (firstn_all2 w) by lia. rewrite Ht, skipn_exact, (skipped_ok b1 t1 Hb1 Hs), Hd. reflexivity.
Qed.

Lemma header_some t ty n t3 : header t = Some (ty, n, t3) ->
  no_space t3 /\ exists u, u <> [] /\ t = u ++ t3 /\ forall t3', alike t3 t3' -> header (u ++ t3') = Some (ty, n, t3').
Proof.
  unfold header at 1. destruct (skipped_split t) as (b0 & Et & Hb0 & Hs0). set (t0 := skipped t) in *. clearbody t0. subst t. unfold word_upto.
  destruct (type_of_word (firstn 19 (word_at t0))) as [ty'|] eqn:Ety; [|discriminate]. destruct (type_upto _ _ Ety) as [E19 Hin]. rewrite E19 in *.
  destruct (word_at_split t0) as (r0 & Et0 & Hp & Hr0). set (w := word_at t0) in *. clearbody w. subst t0. rewrite skipn_exact.
  destruct (skipped_split r0) as (b1 & Er0 & Hb1 & Hs1). set (t1 := skipped r0) in *. clearbody t1. subst r0.
  destruct (name_short w Hin) as (_ & Hnw & _).
  destruct (dims_cases (word_at t1)) as [(Hz & d & nv & Ed)|Ed]; rewrite Ed; intros H; injection H as <- <- <-.
  - destruct (word_at_split t1) as (r2 & Et1 & Hp2 & Hr2). set (w2 := word_at t1) in *. clearbody w2. subst t1. rewrite skipn_exact.
    destruct (dims_word w2 Hz) as (c & w2' & Ew2 & Hc & Hc').
    destruct (skipped_split r2) as (b2 & Er2 & Hb2 & Hs2). set (t3 := skipped r2) in *. clearbody t3. subst r2. split; [exact Hs2|].
    exists (b0 ++ w ++ b1 ++ w2 ++ b2). split; [intros Z; apply app_eq_nil in Z; destruct Z as [_ Z]; apply app_eq_nil in Z; destruct Z; congruence|].
    split; [rewrite <- !app_assoc; reflexivity|]. intros t3' Ha. pose proof (app_word_end b2 _ _ Hb2 Ha Hr2) as He. pose proof (alike_no_space _ _ Ha Hs2) as Hs3.
    rewrite <- !app_assoc. rewrite (header_ok b0 w b1 (w2 ++ b2 ++ t3') ty' d nv (length w2)); auto.
    + rewrite skipn_exact, (skipped_ok b2 t3' Hb2 Hs3). reflexivity.
    + destruct b1 as [|x b1]; [|exact Hr0]. subst w2. cbn in Hr0. contradiction.
    + subst w2. exact Hc'.
    + rewrite (word_at_ok w2 _ Hp2 He). exact Ed.
  - change (skipn 0 t1) with t1. rewrite (skipped_id t1 Hs1). split; [exact Hs1|]. exists (b0 ++ w ++ b1).
    split; [intros Z; apply app_eq_nil in Z; destruct Z as [_ Z]; apply app_eq_nil in Z; destruct Z; congruence|]. split; [rewrite <- !app_assoc; reflexivity|].
    intros t3' Ha. pose proof (app_word_end b1 _ _ Hb1 Ha Hr0) as He. pose proof (alike_no_space _ _ Ha Hs1) as Hs3.
    rewrite <- !app_assoc. rewrite (header_ok b0 w b1 t3' ty' 1 2 0); auto.
    + change (skipn 0 t3') with t3'. rewrite (skipped_id t3' Hs3). reflexivity.
    + destruct Ha as [Ha|[Ha|[_ [r ->]]]].
      * rewrite (same_start_word _ _ Ha). exact Ed.
      * destruct t3'; [reflexivity|]. injection Ha as ->. reflexivity.
      * reflexivity.
Qed.
Lemma header_none t : header t = None -> exists b, blank b /\ t = b ++ skipped t /\ no_space (skipped t) /\ ~ In (word_at (skipped t)) type_names /\
  forall r, no_space r -> word_at r = word_at (skipped t) -> header (b ++ r) = None /\ skipped (b ++ r) = r.
Proof.
  unfold header at 1. destruct (skipped_split t) as (b0 & Et & Hb0 & Hs0). set (t0 := skipped t) in *. clearbody t0. unfold word_upto.
  destruct (type_of_word (firstn 19 (word_at t0))) as [ty'|] eqn:Ety; [destruct (dims_of_word _) as [[? ?] ?]; discriminate|]. intros _.
  exists b0. split; [exact Hb0|]. split; [exact Et|]. split; [exact Hs0|]. split.
  - intros H. destruct (name_short _ H) as [Hl _]. rewrite firstn_all2 in Ety by lia. destruct (named_type _ H). congruence.
  - intros r Hr Hw. unfold header. rewrite (skipped_ok b0 r Hb0 Hr). unfold word_upto. rewrite Hw, Ety. auto.
Qed.

Section Parser.
Variable parse : bytes -> option N.
Hypothesis no_word : parse [] = None.
Hypothesis zero : parse $"0" <> None.
Notation errs := (errs parse).
Notation errs_at := (errs_at parse).

Lemma tagged_S f t : e_tagged parse (S f) t =
  match header t with None => Bad $"geometry type" (skipped t) | Some (ty, n, t3) => e_body parse ty n (e_tagged parse f) t3 end.
Proof.
  cbn [e_tagged]. unfold header. destruct (type_of_word _); [|reflexivity]. destruct (dims_of_word _) as [[? ?] ?]. reflexivity.
Qed.

(** ** Bodies *)

Definition point_text : bytes := $"POINT(0 0)".
Lemma tagged_point f r : e_tagged parse (S f) (point_text ++ r) = Got r.
Proof. change (e_point parse 1 (coords_text 1 ++ r) = Got r). apply point_fin; assumption. Qed.
Lemma errs_body ty n member member' : errs word_end (near 80) member member' -> shrinks member' -> (forall r, word_end r -> member' (point_text ++ r) = Got r) ->
  errs word_end open (e_body parse ty n member) (e_body parse ty n member').
Proof.
  intros Hm Hs Hf. unfold e_body.
  destruct (ty =? 1); [apply errs_point; assumption|]. destruct (ty =? 2); [apply errs_coordinates; assumption|]. destruct (ty =? 3); [apply errs_polygon; assumption|].
  destruct (ty =? 4); [apply errs_multipoint; assumption|]. destruct (ty =? 5); [apply errs_multilinestring; assumption|]. destruct (ty =? 6); [apply errs_multipolygon; assumption|].
  apply (errs_paren_items parse member member' 80 point_text); auto. split; [reflexivity|discriminate].
Qed.
Lemma paren_starts l t r : e_paren l t = Got r -> hd_error t = Some 40 \/ t = $"EMPTY" ++ r.
Proof.
  unfold e_paren. destruct (hd 0 t =? chr_open) eqn:E.
  - destruct (hd_eqb 40 t ltac:(discriminate) E) as [s ->]. left. reflexivity.
  - destruct (empty_cases t) as [(r0 & -> & Hr)|Hw]; [rewrite (empty_got r0 Hr); intros H; injection H as <-; right; reflexivity|]. rewrite (empty_bad t Hw). discriminate.
Qed.
Lemma body_starts ty n member t r : e_body parse ty n member t = Got r -> hd_error t = Some 40 \/ t = $"EMPTY" ++ r.
Proof. unfold e_body. repeat match goal with |- context[ty =? ?k] => destruct (ty =? k) end; apply paren_starts. Qed.
Lemma shrinks_body ty n member : shrinks member -> shrinks (e_body parse ty n member).
Proof.
  intros Hs. unfold e_body.
  destruct (ty =? 1); [apply shrinks_point; assumption|]. destruct (ty =? 2); [apply shrinks_coordinates; assumption|].
  destruct (ty =? 3); [exact (errs_shrinks parse _ _ _ _ (errs_polygon parse no_word zero n))|].
  destruct (ty =? 4); [exact (errs_shrinks parse _ _ _ _ (errs_multipoint parse no_word zero n))|].
  destruct (ty =? 5); [exact (errs_shrinks parse _ _ _ _ (errs_multilinestring parse no_word zero n))|].
  destruct (ty =? 6); [exact (errs_shrinks parse _ _ _ _ (errs_multipolygon parse no_word zero n))|].
  apply shrinks_paren, shrinks_items, Hs.
Qed.
Lemma header_length t ty n t3 : header t = Some (ty, n, t3) -> (length t3 < length t)%nat.
Proof. intros H. destruct (header_some _ _ _ _ H) as (_ & u & Hu & -> & _). rewrite app_length. destruct u; [congruence|]. cbn. lia. Qed.
Lemma shrinks_tagged f : shrinks (e_tagged parse f).
Proof.
  induction f as [|f IH]; intros t r; [discriminate|]. rewrite tagged_S. destruct (header t) as [[[ty n] t3]|] eqn:E; [|discriminate].
  intros H. apply (shrinks_body ty n _ IH) in H. apply header_length in E. lia.
Qed.

Lemma type_stands t : stands parse $"geometry type" t -> In (word_at t) type_names.
Proof. intros H. inversion H as [| | | | | | |w t' Hi Hw| |]; subst. rewrite (starts_word_at _ _ Hw). exact Hi. Qed.
Lemma errs_tagged f : errs word_end (near 80) (e_tagged parse f) (e_tagged parse (S f)).
Proof.
  induction f as [|f IH]; [intros t; exact I|]. intros t. rewrite tagged_S. destruct (header t) as [[[ty n] t3]|] eqn:E.
  - destruct (header_some _ _ _ _ E) as (Hs & u & Hu & -> & L).
    assert (forall s, alike t3 s -> e_tagged parse (S (S f)) (u ++ s) = e_body parse ty n (e_tagged parse (S f)) s) as G by (intros s Ha; rewrite tagged_S, (L s Ha); reflexivity).
    apply (errs_prefix parse u word_end open (near 80) (e_body parse ty n (e_tagged parse (S f)))).
    + exact Hu.
    + apply errs_body; [exact IH|apply shrinks_tagged|intros r _; apply tagged_point].
    + intros s. left. apply hd_app. exact Hu.
    + intros v r r' Hx Hv -> Hr. apply G. destruct (body_starts _ _ _ _ _ Hx) as [H|H].
      * right; left. rewrite (hd_app v r r' Hv). exact H.
      * apply app_inv_tail in H. subst v. right; right. split; eexists; reflexivity.
    + intros w v r r' _ -> (x & c & q & q' & Hx & Hc & -> & ->). apply G. left. destruct (span_word v) as (v1 & v2 & -> & Hv1 & Hv2). destruct v2 as [|y v2].
      * exists (v1 ++ x), c, q, q'. split; [apply Forall_app; auto|]. split; [exact Hc|]. rewrite app_nil_r, <- !app_assoc. auto.
      * exists v1, y, (v2 ++ x ++ [c] ++ q), (v2 ++ x ++ [c] ++ q'). split; [exact Hv1|]. split; [exact Hv2|]. rewrite <- !app_assoc. auto.
    + intros s H. apply G. right; left. exact H.
  - destruct (header_none _ E) as (b & Hb & Et & Hs & Hn & L). exists b. split; [exact Et|]. split; [intros H; exact (Hn (type_stands _ H))|]. split.
    + intros _ r' Hr. destruct (L r' (hd_no_space _ _ (same_start_hd _ _ Hr) Hs) (same_start_word _ _ Hr)) as [L1 L2]. rewrite tagged_S, L1, L2. reflexivity.
    + exists point_text. intros r' Hr. split; [|split].
      * apply (a_type parse $"POINT"); [left; reflexivity|]. split; [|exists ($"(0 0)" ++ r'); split; [reflexivity|]; right; cbn; auto 10].
        repeat constructor; intros Z; cbn in Z; repeat destruct Z as [Z|Z]; try discriminate Z; exact Z.
      * rewrite Et at 1. destruct b; [right; reflexivity|left; reflexivity].
      * rewrite tagged_S.
        assert (header (b ++ point_text ++ r') = header (point_text ++ r')) as -> by (unfold header; rewrite (skipped_ok b (point_text ++ r') Hb eq_refl); reflexivity).
        pose proof (tagged_point (S f) r') as H. rewrite tagged_S in H. exact H.
Qed.

(** ** Fuel *)

Definition refines (f f' : bytes -> reading) : Prop := forall t, f t <> Tired -> f' t = f t.
Lemma refines_refl f : refines f f.
Proof. intros t _. reflexivity. Qed.
Lemma refines_chain f f' g g' : refines f f' -> refines g g' -> refines (chain f g) (chain f' g').
Proof. intros Hf Hg t. unfold chain. specialize (Hf t). destruct (f t) as [r| |]; intros H; try congruence; rewrite Hf by discriminate; [apply Hg; exact H|reflexivity]. Qed.
Lemma refines_more item item' : refines item item' -> forall n, refines (e_more n item) (e_more n item').
Proof.
  intros Hi. induction n as [|n IH]; intros t; cbn [e_more]; (destruct (hd 0 t =? chr_close); [reflexivity|]); [congruence|].
  apply refines_chain; [apply refines_refl|]. apply refines_chain; [apply refines_refl|]. apply refines_chain; [apply refines_refl|]. apply refines_chain; [exact Hi|].
  apply refines_chain; [apply refines_refl|exact IH].
Qed.
Lemma refines_items item item' : refines item item' -> refines (e_items item) (e_items item').
Proof. intros H. apply refines_chain; [exact H|]. apply refines_chain; [apply refines_refl|]. intros t. apply refines_more. exact H. Qed.
Lemma refines_paren l l' : refines l l' -> refines (e_paren l) (e_paren l').
Proof. intros H t. unfold e_paren. destruct (hd 0 t =? chr_open); [apply H|reflexivity]. Qed.
Lemma refines_body ty n member member' : refines member member' -> refines (e_body parse ty n member) (e_body parse ty n member').
Proof. intros H. unfold e_body. repeat match goal with |- context[ty =? ?k] => destruct (ty =? k); [apply refines_refl|] end. apply refines_paren, refines_items, H. Qed.
Lemma refines_tagged f : forall f', (f <= f')%nat -> refines (e_tagged parse f) (e_tagged parse f').
Proof.
  induction f as [|f IH]; intros f' Hf t H; [cbn in H; congruence|]. destruct f' as [|f']; [lia|]. rewrite tagged_S in H. rewrite !tagged_S. destruct (header t) as [[[ty n] t3]|]; [|reflexivity].
  apply (refines_body ty n _ _ (IH f' ltac:(lia))). exact H.
Qed.
Lemma agree_items b item item' : shrinks item -> agree b item item' -> agree b (e_items item) (e_items item').
Proof.
  intros Hs H. apply agree_chain; [exact Hs|exact H|]. apply agree_chain; [apply shrinks_skip|apply agree_refl|]. intros t Ht. unfold e_rest.
  apply (agree_more item item' Hs (S (length t))); [intros x Hx; apply H; lia|lia|lia|lia].
Qed.
Lemma agree_body b ty n member member' : shrinks member -> agree b member member' -> agree (S b) (e_body parse ty n member) (e_body parse ty n member').
Proof.
  intros Hs H. unfold e_body. repeat match goal with |- context[ty =? ?k] => destruct (ty =? k); [apply agree_refl|] end.
  intros t Ht. unfold e_paren. destruct (hd 0 t =? chr_open) eqn:E; [|reflexivity]. destruct (hd_eqb 40 t ltac:(discriminate) E) as [s ->].
  apply (agree_items b); [exact Hs|exact H|]. pose proof (skipped_length s). cbn [length skipn] in *. lia.
Qed.
Lemma agree_tagged b : forall f f', (b <= f)%nat -> (b <= f')%nat -> agree b (e_tagged parse f) (e_tagged parse f').
Proof.
  induction b as [|b IH]; intros f f' Hf Hf' t Ht; [lia|]. destruct f as [|f]; [lia|]. destruct f' as [|f']; [lia|]. rewrite !tagged_S.
  destruct (header t) as [[[ty n] t3]|] eqn:E; [|reflexivity]. apply header_length in E. apply (agree_body b); [apply shrinks_tagged|apply IH; lia|lia].
Qed.
Lemma tagged_enough f t : e_tagged parse f t <> Tired -> e_tagged parse (S (length t)) t = e_tagged parse f t.
Proof.
  intros H. rewrite <- (refines_tagged f (Nat.max f (S (length t))) ltac:(lia) t H). apply (agree_tagged (S (length t))); lia.
Qed.

(** ** Visits *)

Lemma skip_end r : no_space r -> hd 0 r <> 0 -> e_end r = Bad $"end of input" r.
Proof. intros _ H. unfold e_end. apply N.eqb_neq in H. rewrite H. reflexivity. Qed.
Lemma visit_errs src w r : e_visit parse src = Bad w r -> exists u, src = u ++ r /\ ~ stands parse w r /\
  (w <> $"'('" -> forall r', same_start r r' -> e_visit parse (u ++ r') = Bad w r') /\
  exists c q, stands parse w c /\ e_visit parse (u ++ c) = Got q.
Proof.
  intros H. unfold e_visit in H. pose proof (errs_tagged (S (length src)) src) as T. unfold chain at 1 in H.
  destruct (e_tagged parse (S (length src)) src) as [r1|w1 r1|] eqn:E; [| |discriminate H].
  - destruct T as (u & Hu & Es & L). change (e_end (skipped r1) = Bad w r) in H. destruct (skipped_split r1) as (b & Er & Hb & Hs). set (q := skipped r1) in *. clearbody q. subst r1.
    unfold e_end in H. destruct (N.eqb_spec (hd 0 q) 0) as [Hq|Hq]; [discriminate H|]. injection H as <- <-.
    assert (forall s, word_end (b ++ s) \/ hd_error s = hd_error q -> no_space s -> e_visit parse (u ++ b ++ s) = e_end s) as V.
    { intros s Hs1 Hs2. unfold e_visit, chain. assert (e_tagged parse (S (S (length src))) (u ++ b ++ s) = Got (b ++ s)) as G.
      { apply L. destruct Hs1 as [Hs1|Hs1]; [right; exact Hs1|left]. destruct b; [exact Hs1|reflexivity]. }
      rewrite (tagged_enough (S (S (length src)))) by (rewrite G; discriminate). rewrite G. unfold e_skip. rewrite (skipped_ok b s Hb Hs2). reflexivity. }
    exists (u ++ b). split; [rewrite <- app_assoc; exact Es|]. split; [intros Z; inversion Z; subst; apply Hq; reflexivity|]. split.
    + intros _ r' Hr. pose proof (same_start_hd _ _ Hr) as Hh. rewrite <- app_assoc, V; [|right; exact Hh|exact (hd_no_space _ _ Hh Hs)].
      unfold e_end. rewrite (hd_hd _ _ Hh). apply N.eqb_neq in Hq. rewrite Hq. reflexivity.
    + exists [], []. split; [constructor|]. rewrite <- app_assoc, V; [reflexivity| |exact I]. left. destruct b as [|x b]; [exact I|]. inversion Hb as [|? ? Hx]; subst. apply is_space_blank in Hx. apply space_ends. exact Hx.
  - injection H as -> ->. destruct T as (u & Es & Hw & D & c & C). exists u. split; [exact Es|]. split; [exact Hw|]. split.
    + intros Hx r' Hr. specialize (D Hx r' Hr). unfold e_visit, chain. rewrite (tagged_enough (S (S (length src)))) by (rewrite D; discriminate). rewrite D. reflexivity.
    + exists c, []. destruct (C [] I) as (C1 & _ & C3). rewrite !app_nil_r in *. split; [exact C1|]. unfold e_visit, chain.
      rewrite (tagged_enough (S (S (length src)))) by (rewrite C3; discriminate). rewrite C3. reflexivity.
Qed.
End Parser.
