From Verif Require Import Base BaseFacts Text GeomSpec GeomFacts VisitorModel VisitorSpec VisitorFacts WktSpec WktReaderModel WktGrammar WktReaderFacts
  WktReaderProofs WktReaderBodies WktReaderGeoms WktReadable BufferModel BufferFacts WktWriterModel WktWriterHistory.
Local Open Scope Z_scope.

Section Roundtrip.
Variable parse : bytes -> option N.
Variable print : N -> bytes.
Variable flat : bool.
Definition invertible (w : N) : Prop := numeral parse w (print w).

Lemma commas_list {A} (R : A -> bytes -> Prop) (f : A -> bytes) xs : xs <> [] -> Forall (fun x => R x (f x)) xs -> list_text R xs (commas (map f xs)).
Proof.
  induction xs as [|x xs IH]; intros Hn H; [congruence|]. inversion H as [|? ? Hx Hxs]; subst. destruct xs as [|y xs].
  - exists (f x), []. split; [exact Hx|]. split; [constructor|]. cbn. rewrite app_nil_r. reflexivity.
  - exists (f x), []. split; [exact Hx|]. split; [constructor|]. exists $" ", (commas (map f (y :: xs))).
    split; [repeat constructor; cbn; auto|]. split; [apply IH; [discriminate|exact Hxs]|]. reflexivity.
Qed.
Lemma list_empty_or {A} (R : A -> bytes -> Prop) (f : A -> bytes) xs : Forall (fun x => R x (f x)) xs -> empty_or_text R xs (wkt_list (map f xs)).
Proof.
  intros H. destruct xs as [|x xs]; [left; auto|]. right. exists [], (commas (map f (x :: xs))). split; [constructor|].
  split; [apply commas_list; [discriminate|exact H]|reflexivity].
Qed.
Lemma spaced_ordinates c : c <> [] -> Forall invertible c -> ordinates_text parse c (spaced (map print c)).
Proof.
  induction c as [|w c IH]; intros Hn H; [congruence|]. inversion H as [|? ? Hw Hc]; subst. destruct c as [|w' c]; [exact Hw|].
  exists (print w), $" ", (spaced (map print (w' :: c))). split; [exact Hw|]. split; [repeat constructor; cbn; auto|]. split; [discriminate|].
  split; [apply IH; [discriminate|exact Hc]|reflexivity].
Qed.
Lemma coord_readable d c : wf_coord d c -> Forall invertible c -> coord_text parse d c (wkt_coord print c).
Proof. intros [Hl _] H. split; [exact Hl|]. apply spaced_ordinates; [destruct c; [destruct d; discriminate Hl|discriminate]|exact H]. Qed.
Lemma seq_readable d cs : wf_seq d cs -> Forall (Forall invertible) cs -> seq_text parse d cs (wkt_seq print cs).
Proof.
  intros H Hi. apply list_empty_or. unfold wf_seq in H. rewrite Forall_forall in *. intros c Hc. apply coord_readable; auto.
Qed.

Lemma dim_readable d : dim_text d (wkt_dim d).
Proof.
  destruct d; [reflexivity|..]; (exists $" "; split; [repeat constructor; cbn; auto|]; split; [discriminate|reflexivity]).
Qed.

Lemma body_coll k d parts : wkt_body print flat (GColl k d parts) = wkt_list (map (fun g =>
  match k, g with
  | CCollection, _ => wkt_tag g ++ wkt_dim (geom_dim g) ++ $" " ++ wkt_body print flat g
  | CMultipoint, GPoint _ cs => if flat then wkt_bare print cs else wkt_seq print cs
  | _, _ => wkt_body print flat g
  end) parts).
Proof. reflexivity. Qed.

Lemma tagged_readable g : body_text parse false g (wkt_body print flat g) -> tagged parse g (wkt print flat g).
Proof.
  intros H. exists (wkt_dim (geom_dim g)), $" ", (wkt_body print flat g). split; [apply dim_readable|]. split; [repeat constructor; cbn; auto|].
  split; [exact H|]. split; [discriminate|reflexivity].
Qed.

Lemma ordinates_coll k d parts : ordinates (GColl k d parts) = flat_map ordinates parts.
Proof.
  unfold ordinates. rewrite geom_coords_coll. induction parts as [|g gs IH]; [reflexivity|]. cbn [flat_map]. rewrite flat_map_app. f_equal. exact IH.
Qed.
Lemma ordinates_seq (d : dim) (cs : list coord) : flat_map snd (map (pair d) cs) = concat cs.
Proof. induction cs as [|c cs IH]; [reflexivity|]. cbn. rewrite IH. reflexivity. Qed.
Lemma Forall_concat' {A} (P : A -> Prop) ls : Forall P (concat ls) <-> Forall (Forall P) ls.
Proof. induction ls as [|l ls IH]; cbn; [split; constructor|]. rewrite Forall_app, IH. split; [intros []; constructor; assumption|intros H; inversion H; auto]. Qed.
Lemma Forall_flat_map' {A B} (P : B -> Prop) (f : A -> list B) l : Forall P (flat_map f l) <-> Forall (fun x => Forall P (f x)) l.
Proof. induction l as [|x l IH]; cbn; [split; constructor|]. rewrite Forall_app, IH. split; [intros []; constructor; assumption|intros H; inversion H; auto]. Qed.

Lemma body_readable g : typed g -> wf_geom g -> uniform g -> readable flat g -> Forall invertible (ordinates g) -> body_text parse false g (wkt_body print flat g).
Proof.
  induction g as [d cs|d cs|d rings|k d parts IH] using geom_ind'; intros Hty Hwf Hu Hrd Hi.
  - inversion Hwf; subst. split; [assumption|]. unfold ordinates in Hi. cbn [geom_coords] in Hi. rewrite ordinates_seq, Forall_concat' in Hi. apply seq_readable; assumption.
  - inversion Hwf; subst. unfold ordinates in Hi. cbn [geom_coords] in Hi. rewrite ordinates_seq, Forall_concat' in Hi. apply seq_readable; assumption.
  - inversion Hwf as [| |? ? Hw|]; subst. unfold ordinates in Hi. cbn [geom_coords] in Hi. rewrite ordinates_seq, Forall_concat', Forall_concat' in Hi. cbn [body_text wkt_body].
    apply list_empty_or. rewrite Forall_forall in *. intros cs Hc. apply seq_readable; auto.
  - inversion Hwf as [| | |? ? ? Hw]; subst. apply wf_geoms_Forall in Hw. inversion Hty as [| | |? ? ? Hm Ht]; subst. inversion Hu as [| | |? ? ? Hud Hus]; subst.
    inversion Hrd as [| | |? ? ? Hfl Hrs]; subst. rewrite ordinates_coll, Forall_flat_map' in Hi. rewrite body_coll.
    assert (Forall (fun g => body_text parse false g (wkt_body print flat g)) parts) as Hb.
    { rewrite Forall_forall in *. intros g Hg. apply IH; auto. }
    assert (forall g, In g parts -> geom_dim g = d \/ k = CCollection) as Hdim.
    { intros g Hg. destruct k; [left; apply Hud; [discriminate|exact Hg]..|right; reflexivity]. }
    rewrite Forall_forall in Hm, Hb, Hw, Hi, Ht. destruct k; cbn [body_text].
    + destruct flat eqn:Ef.
      * destruct (Hfl eq_refl eq_refl) as [Hall|Hall].
        -- (* all members empty *)
           left. apply list_empty_or. rewrite Forall_forall. intros g Hg. specialize (Hm g Hg). specialize (Hall g Hg). destruct g as [d' cs| | |]; try contradiction.
           destruct (Hdim _ Hg) as [Ed|]; [|discriminate]. cbn in Ed. cbn in Hall. subst d' cs. split; [reflexivity|]. cbn [body_text]. split; [cbn; lia|]. left. auto.
        -- destruct parts as [|g0 gs]; [left; left; auto|]. right. exists [], (commas (map (fun g =>
             match g with GPoint _ cs => wkt_bare print cs | _ => wkt_body print true g end) (g0 :: gs))).
           split; [auto|]. split; [|reflexivity]. apply commas_list; [discriminate|]. rewrite Forall_forall. intros g Hg.
           specialize (Hm g Hg). specialize (Hall g Hg). specialize (Hw g Hg). specialize (Hi g Hg). destruct g as [d' cs| | |]; try contradiction.
           destruct (Hdim _ Hg) as [Ed|]; [|discriminate]. cbn in Ed. subst d'. inversion Hw as [? ? Hws Hl| | |]; subst. cbn in Hall.
           destruct cs as [|c [|]]; [congruence| |cbn in Hl; lia]. inversion Hws; subst. split; [reflexivity|]. cbn [wkt_bare map commas].
           unfold ordinates in Hi. cbn in Hi. rewrite app_nil_r in Hi. apply coord_readable; assumption.
      * left. apply list_empty_or. rewrite Forall_forall. intros g Hg. specialize (Hm g Hg). specialize (Hb g Hg). destruct g as [d' cs| | |]; try contradiction.
        destruct (Hdim _ Hg) as [Ed|]; [|discriminate]. cbn in Ed. subst d'. split; [reflexivity|exact Hb].
    + apply list_empty_or. rewrite Forall_forall. intros g Hg. specialize (Hm g Hg). specialize (Hb g Hg). destruct g as [|d' cs| |]; try contradiction.
      destruct (Hdim _ Hg) as [Ed|]; [|discriminate]. cbn in Ed. subst d'. split; [reflexivity|exact Hb].
    + apply list_empty_or. rewrite Forall_forall. intros g Hg. specialize (Hm g Hg). specialize (Hb g Hg). destruct g as [| |d' cs|]; try contradiction.
      destruct (Hdim _ Hg) as [Ed|]; [|discriminate]. cbn in Ed. subst d'. split; [reflexivity|exact Hb].
    + apply list_empty_or. rewrite Forall_forall. intros g Hg. apply tagged_readable. auto.
Qed.

Theorem wkt_readable g : typed g -> wf_geom g -> uniform g -> readable flat g -> Forall invertible (ordinates g) -> wkt_text parse false g (wkt print flat g).
Proof.
  intros Hty Hwf Hu Hr Hi. exists [], (wkt print flat g), []. split; [constructor|]. split; [apply tagged_readable, body_readable; assumption|].
  split; [constructor|]. rewrite app_nil_r. reflexivity.
Qed.
End Roundtrip.

Lemma roundtrip print_double parse : (forall w p, 0 <= p <= 16 -> (length (print_double w p) <= 40)%nat) -> number_parser parse ->
  forall precision flat max, max < 0 -> forall g evs s s0,
  let cfg := wkt_config precision flat max in
  typed g -> wf_geom g -> (nesting g <= 32)%nat -> uniform g -> readable flat g ->
  (forall w, In w (ordinates g) -> parse (print_double w (kc_precision cfg)) = Some w /\ Forall (fun c => ~ ends_word c) (print_double w (kc_precision cfg))) ->
  geom_events g evs -> b_size (k_values s) < 2 ^ 31 -> buf_ok (k_values s) ->
  exists s' text evs', feed (wkt_step print_double cfg) s ([EFeatStart] ++ evs ++ [EFeatEnd]) = Some (s', 0) /\
    b_data (k_values s') = b_data (k_values s) ++ text /\
    trace (wkt_visit parse s0 text) = ([EFeatStart] ++ evs' ++ [EFeatEnd], Ok tt) /\ geom_events g evs'.
Proof.
  intros Hs Hn precision flat max Hm g evs s s0 cfg Hty Hwf Hne Hu Hr Hi He Hsz Hok.
  destruct (canonical_text print_double Hs precision flat max g evs s Hm Hty Hwf Hne He Hsz Hok) as (s' & F & D & _).
  set (text := wkt (fun w => print_double w (kc_precision cfg)) flat g) in *.
  destruct (wkt_visit_complete parse Hn g text s0) as (evs' & T & He' & _).
  { apply wkt_readable; try assumption. apply Forall_forall. exact Hi. }
  exists s', text, evs'. auto.
Qed.
