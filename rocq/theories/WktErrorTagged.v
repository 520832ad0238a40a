From Verif Require Import Base BaseFacts Text GeomSpec VisitorModel WktSpec WktReaderModel WktGrammar WktReaderFacts WktErrorModel WktErrorSpec WktErrorProofs.
Local Open Scope N_scope.

Section Parser.
Variable parse : bytes -> option N.
Hypothesis no_word : parse [] = None.
Hypothesis zero : parse $"0" <> None.
Notation errs := (errs parse).
Notation errs_at := (errs_at parse).

(** ** Lists in parentheses *)

Definition open (t t' : bytes) : Prop := hd_error t' = Some 40.
Lemma open_near t t' : hd_error t' = hd_error t \/ open t t' -> near 40 t t'.
Proof. intros H. exact H. Qed.
Lemma hd_eqb c t : c <> 0 -> (hd 0 t =? c) = true -> exists s, t = c :: s.
Proof. intros Hc E. apply N.eqb_eq in E. destruct t as [|x s]; cbn [hd] in E; [congruence|]. subst x. eauto. Qed.

Lemma errs_prefix p (ok : bytes -> Prop) (N N' : bytes -> bytes -> Prop) f' g' t x : p <> [] -> errs_at ok N f' t x -> (forall s, N' (p ++ t) (p ++ s)) ->
  (forall u r r', x = Got r -> u <> [] -> t = u ++ r -> hd_error r' = hd_error r \/ ok r' -> g' (p ++ u ++ r') = f' (u ++ r')) ->
  (forall w u r r', x = Bad w r -> t = u ++ r -> same_start r r' -> g' (p ++ u ++ r') = f' (u ++ r')) ->
  (forall s, N t s -> g' (p ++ s) = f' s) -> errs_at ok N' g' (p ++ t) x.
Proof.
  intros Hp H Hn HG HB HN. destruct x as [r|w r|]; [| |exact I].
  - destruct H as (u & Hu & E & L). exists (p ++ u). split; [destruct p; [congruence|discriminate]|]. split; [rewrite E, app_assoc; reflexivity|].
    intros r' Hr. rewrite <- app_assoc, (HG u r r' eq_refl Hu E Hr). auto.
  - destruct H as (u & E & Hs & D & c & C). exists (p ++ u). split; [rewrite E, app_assoc; reflexivity|]. split; [exact Hs|]. split.
    + intros Hw r' Hr. rewrite <- app_assoc, (HB w u r r' eq_refl E Hr). auto.
    + exists c. intros r' Hr. destruct (C r' Hr) as (C1 & C2 & C3). rewrite <- app_assoc. split; [exact C1|]. split; [apply Hn|]. rewrite (HN _ C2). exact C3.
Qed.
Lemma errs_prefix_hd p (ok : bytes -> Prop) (N N' : bytes -> bytes -> Prop) f' g' t x : p <> [] -> errs_at ok N f' t x -> (forall s, N' (p ++ t) (p ++ s)) ->
  (forall s, hd_error s = hd_error t \/ N t s -> g' (p ++ s) = f' s) -> errs_at ok N' g' (p ++ t) x.
Proof.
  intros Hp H Hn Hg. apply (errs_prefix p ok N N' f' g'); auto.
  - intros u r r' _ Hu -> _. apply Hg. left. apply hd_app. exact Hu.
  - intros w u r r' _ -> Hr. apply Hg. left. destruct u; [apply same_start_hd; exact Hr|reflexivity].
Qed.

Lemma plain_EMPTY : plain $"EMPTY".
Proof. repeat constructor; intros H; cbn in H; repeat destruct H as [H|H]; try discriminate H; exact H. Qed.
Lemma empty_got r : word_end r -> e_empty ($"EMPTY" ++ r) = Got r.
Proof. intros Hr. unfold e_empty, word_upto. rewrite word_at_ok; [reflexivity|exact plain_EMPTY|exact Hr]. Qed.
Lemma empty_bad t : word_at t <> $"EMPTY" -> e_empty t = Bad $"'(' or 'EMPTY'" t.
Proof.
  intros H. unfold e_empty, word_upto. destruct (word_is (firstn 6 (word_at t)) $"EMPTY") eqn:E; [|reflexivity]. exfalso. apply H.
  apply word_is_spec in E. apply firstn_short in E; [exact E|]. vm_compute. lia.
Qed.
Lemma empty_cases t : (exists r, t = $"EMPTY" ++ r /\ word_end r) \/ word_at t <> $"EMPTY".
Proof.
  destruct (list_eq_dec N.eq_dec (word_at t) $"EMPTY") as [E|E]; [left|right; exact E].
  destruct (word_at_split t) as (r & Et & _ & Hr). rewrite E in Et. exists r. split; [exact Et|exact Hr].
Qed.
(** [l'] reads EMPTY, unless there is a parenthesis. *)
Lemma errs_empty l' d : (forall r, word_end r -> l' ($"(" ++ d ++ r) = Got r) -> (forall s, hd 0 s <> chr_open -> l' s = e_empty s) ->
  forall t, hd 0 t <> chr_open -> errs_at word_end open l' t (e_empty t).
Proof.
  intros Hl He t Ht. destruct (empty_cases t) as [(r & -> & Hr)|Hw].
  - rewrite (empty_got r Hr). exists $"EMPTY". split; [discriminate|]. split; [reflexivity|]. intros r' H. rewrite He by discriminate. apply empty_got.
    destruct H as [H|H]; [exact (hd_word_end _ _ H Hr)|exact H].
  - rewrite (empty_bad t Hw). exists []. split; [reflexivity|]. split.
    { intros H. inversion H as [| | | |r|t' Hs| | | |]; subst; [apply Ht; reflexivity|]. apply Hw. apply starts_word_at. assumption. }
    split.
    + intros _ r' Hr. cbn [app]. rewrite He by (rewrite (hd_hd _ _ (same_start_hd _ _ Hr)); exact Ht). apply empty_bad. rewrite (same_start_word _ _ Hr). exact Hw.
    + exists ($"(" ++ d). intros r' Hr. rewrite <- app_assoc. split; [apply an_opening_list|]. split; [reflexivity|]. cbn [app]. apply Hl. exact Hr.
Qed.

Section Paren.
Variables (l l' : bytes -> reading) (c : N) (d : bytes).
Hypothesis Hl : errs anything (near c) l l'.
Hypothesis Hc : is_space c = false.
Hypothesis Hd : token d.
Hypothesis Hfin : forall r, l' (d ++ r) = Got r.
Lemma paren_fin r : e_paren l' ($"(" ++ d ++ r) = Got r.
Proof. change (l' (skipped (d ++ r)) = Got r). rewrite skipped_id by (apply token_no_space; exact Hd). apply Hfin. Qed.
Lemma errs_paren : errs word_end open (e_paren l) (e_paren l').
Proof.
  intros t. unfold e_paren at 2. destruct (hd 0 t =? chr_open) eqn:E.
  - destruct (hd_eqb 40 t ltac:(discriminate) E) as [s ->]. apply (errs_prefix_hd [40] word_end (fun t t' => hd_error t' = hd_error t \/ near c t t') open (chain e_skip l')).
    + discriminate.
    + pose proof (errs_skip parse anything (near c) l l' Hl (fun t t' => near_space c t t' Hc)) as H. apply (errs_weaken parse anything word_end _ _ _ _ H); [intros; exact I|auto].
    + reflexivity.
    + reflexivity.
  - apply (errs_empty (e_paren l') d); [intros r _; apply paren_fin| |].
    + intros s Hs. unfold e_paren. apply N.eqb_neq in Hs. rewrite Hs. reflexivity.
    + apply N.eqb_neq. exact E.
Qed.
End Paren.

Lemma token_app d e : token d -> token (d ++ e).
Proof. destruct d; [intros []|auto]. Qed.
Section Items.
Variables (item item' : bytes -> reading) (c : N) (d : bytes).
Hypothesis Hi : errs word_end (near c) item item'.
Hypothesis Hs : shrinks item'.
Hypothesis Hc : is_space c = false.
Hypothesis Hd : token d.
Hypothesis Hfin : forall r, word_end r -> item' (d ++ r) = Got r.
Lemma paren_items_fin r : e_paren (e_items item') ($"(" ++ (d ++ $")") ++ r) = Got r.
Proof. apply paren_fin; [apply token_app; exact Hd|]. intros s. rewrite <- app_assoc. apply items_fin. exact Hfin. Qed.
Lemma errs_paren_items : errs word_end open (e_paren (e_items item)) (e_paren (e_items item')).
Proof.
  apply (errs_paren _ _ c (d ++ $")")); [|exact Hc|apply token_app; exact Hd|].
  - apply (errs_items parse item item' c d); assumption.
  - intros r. rewrite <- app_assoc. apply items_fin. exact Hfin.
Qed.
End Items.

(** Members are preceded by whitespace. *)
Lemma errs_member f f' : errs word_end open f f' -> errs word_end (near 40) (chain e_skip f) (chain e_skip f').
Proof.
  intros H. apply (errs_weaken parse word_end word_end (fun t t' => hd_error t' = hd_error t \/ open t t') _ _ _); [|auto|exact open_near].
  apply errs_skip; [exact H|]. intros t t' E. right. destruct t'; [exact I|]. unfold open in E. injection E as ->. reflexivity.
Qed.
Lemma member_fin f d : hd_error d = Some 40 -> (forall r, word_end r -> f (d ++ r) = Got r) -> forall r, word_end r -> chain e_skip f (d ++ r) = Got r.
Proof.
  intros Hd H r Hr. change (chain e_skip f (d ++ r)) with (f (skipped (d ++ r))). rewrite skipped_id; [auto|]. destruct d; [discriminate Hd|]. injection Hd as ->. reflexivity.
Qed.
Lemma shrinks_member f : shrinks f -> shrinks (chain e_skip f).
Proof. intros H. apply shrinks_chain; [apply shrinks_skip|exact H]. Qed.

(** ** Bodies *)

Lemma token_open d : hd_error d = Some 40 -> token d.
Proof. destruct d; [discriminate|]. intros E. injection E as ->. split; [reflexivity|discriminate]. Qed.
Lemma token_zeros n : token (zeros n).
Proof. destruct n; split; (reflexivity || discriminate). Qed.

Lemma shrinks_coordinate n : shrinks (e_coordinate parse n).
Proof. exact (errs_shrinks parse _ _ _ _ (errs_coordinate parse no_word zero n)). Qed.
Definition coords_text (n : nat) : bytes := $"(" ++ zeros n ++ $")".
Lemma errs_coordinates n : errs word_end open (e_coordinates parse n) (e_coordinates parse n).
Proof. apply (errs_paren_items _ _ 48 (zeros n)); [apply errs_coordinate; assumption|apply shrinks_coordinate|reflexivity|apply token_zeros|intros r; apply coordinate_fin; assumption]. Qed.
Lemma coordinates_fin n r : e_coordinates parse n (coords_text n ++ r) = Got r.
Proof. unfold coords_text. rewrite <- app_assoc. apply paren_items_fin; [apply token_zeros|intros s; apply coordinate_fin; assumption]. Qed.

Lemma near_close t t' : near chr_close t t' -> hd_error t' = hd_error t \/ word_end t'.
Proof. intros [H|H]; [left; exact H|right]. destruct t'; [exact I|]. injection H as ->. apply (close_end []). Qed.
Lemma errs_point n : errs word_end open (e_point parse n) (e_point parse n).
Proof.
  apply (errs_paren _ _ 48 (zeros n ++ $")")); [|reflexivity|apply token_app, token_zeros|].
  - apply (errs_chain parse word_end anything (near 48) (near chr_close) _ _ _ _ $")"); [apply errs_coordinate; assumption| |left; assumption|exact near_close|].
    + apply (errs_weaken parse anything anything (fun t t' => hd_error t' = hd_error t \/ near chr_close t t')); [|auto|apply near_twice].
      apply errs_skip; [apply errs_close|]. intros t t'. apply near_space. reflexivity.
    + intros r _. split; [apply close_end|reflexivity].
  - intros r. rewrite <- app_assoc. unfold chain at 1. rewrite coordinate_fin by (assumption || apply close_end). reflexivity.
Qed.
Lemma point_fin n r : e_point parse n (coords_text n ++ r) = Got r.
Proof.
  unfold coords_text. rewrite <- app_assoc. apply paren_fin; [apply token_app, token_zeros|].
  intros s. rewrite <- app_assoc. unfold chain at 1. rewrite coordinate_fin by (assumption || apply close_end). reflexivity.
Qed.

Lemma shrinks_point n : shrinks (e_point parse n).
Proof. exact (errs_shrinks parse _ _ _ _ (errs_point n)). Qed.
Lemma shrinks_coordinates n : shrinks (e_coordinates parse n).
Proof. exact (errs_shrinks parse _ _ _ _ (errs_coordinates n)). Qed.

Definition in_parens (d : bytes) : bytes := $"(" ++ d ++ $")".
Section Members.
Variables (f f' : bytes -> reading) (d : bytes).
Hypothesis Hf : errs word_end open f f'.
Hypothesis Hs : shrinks f'.
Hypothesis Hd : hd_error d = Some 40.
Hypothesis Hfin : forall r, f' (d ++ r) = Got r.
Lemma errs_members : errs word_end open (e_paren (e_items (chain e_skip f))) (e_paren (e_items (chain e_skip f'))).
Proof. apply (errs_paren_items _ _ 40 d); [apply errs_member; exact Hf|apply shrinks_member; exact Hs|reflexivity|apply token_open; exact Hd|apply member_fin; [exact Hd|intros r _; apply Hfin]]. Qed.
Lemma errs_member_items : errs anything (near 40) (e_items (chain e_skip f)) (e_items (chain e_skip f')).
Proof. apply (errs_items parse _ _ 40 d); [apply errs_member; exact Hf|apply shrinks_member; exact Hs|reflexivity|apply token_open; exact Hd|apply member_fin; [exact Hd|intros r _; apply Hfin]]. Qed.
Lemma members_fin r : e_paren (e_items (chain e_skip f')) (in_parens d ++ r) = Got r.
Proof. unfold in_parens. rewrite <- app_assoc. apply paren_items_fin; [apply token_open; exact Hd|apply member_fin; [exact Hd|intros s _; apply Hfin]]. Qed.
End Members.

Lemma errs_polygon n : errs word_end open (e_polygon parse n) (e_polygon parse n).
Proof. apply (errs_members _ _ (coords_text n)); [apply errs_coordinates|apply shrinks_coordinates|reflexivity|apply coordinates_fin]. Qed.
Lemma polygon_fin n r : e_polygon parse n (in_parens (coords_text n) ++ r) = Got r.
Proof. apply members_fin; [reflexivity|apply coordinates_fin]. Qed.
Lemma errs_multilinestring n : errs word_end open (e_multilinestring parse n) (e_multilinestring parse n).
Proof. exact (errs_polygon n). Qed.
Lemma errs_multipolygon n : errs word_end open (e_multipolygon parse n) (e_multipolygon parse n).
Proof. apply (errs_members _ _ (in_parens (coords_text n))); [apply errs_polygon|exact (errs_shrinks parse _ _ _ _ (errs_polygon n))|reflexivity|apply polygon_fin]. Qed.

(** ** Multipoints *)

Definition nested_points (n : nat) : bytes -> reading := e_items (chain e_skip (e_point parse n)).
Definition flat_points (n : nat) : bytes -> reading := e_items (e_coordinate parse n).
Definition looks_nested (t : bytes) : bool := (hd 0 t =? chr_open) || (hd 0 t =? chr_E).
Lemma multipoint_open n b t2 : blank b -> no_space t2 -> e_multipoint parse n ([40] ++ b ++ t2) =
  if looks_nested t2 then nested_points n t2 else match b with [] => flat_points n t2 | _ => Bad $"'('" (last b 0 :: t2) end.
Proof.
  intros Hb Hs. unfold e_multipoint, e_paren. cbn [app hd]. change (40 =? chr_open) with true. cbn iota. change (skipn 1 (40 :: b ++ t2)) with (b ++ t2).
  rewrite (skipped_ok b t2 Hb Hs). fold (looks_nested t2). destruct (looks_nested t2); [reflexivity|].
  destruct (list_eq_dec N.eq_dec b []) as [->|Hn].
  - cbn [app length]. rewrite Nat.sub_diag. reflexivity.
  - destruct (exists_last Hn) as (b' & x & ->). rewrite last_last. replace (length (40%N :: (b' ++ [x]) ++ t2) - S (length t2))%nat with (length (40%N :: b')) by (cbn; rewrite !app_length; cbn; lia).
    replace (40 :: (b' ++ [x]) ++ t2) with ((40 :: b') ++ x :: t2) by (cbn [app]; rewrite <- app_assoc; reflexivity).
    rewrite skipn_app, skipn_all, Nat.sub_diag. cbn [app skipn].
    assert (is_space x = true) as Hx by (apply Forall_app in Hb; destruct Hb as [_ Hb]; inversion Hb; apply is_space_blank; assumption).
    unfold chain, e_char. destruct (N.eqb_spec x chr_open) as [->|_]; [discriminate Hx|]. destruct b'; reflexivity.
Qed.
Lemma multipoint_empty n t : hd 0 t <> chr_open -> e_multipoint parse n t = e_empty t.
Proof. intros H. unfold e_multipoint, e_paren. apply N.eqb_neq in H. rewrite H. reflexivity. Qed.
Lemma errs_nested n : errs anything (near 40) (nested_points n) (nested_points n).
Proof. apply (errs_member_items _ _ (coords_text n)); [apply errs_point|apply shrinks_point|reflexivity|apply point_fin]. Qed.
Lemma errs_flat n : errs anything (near 48) (flat_points n) (flat_points n).
Proof. apply (errs_items parse _ _ 48 (zeros n)); [apply errs_coordinate; assumption|apply shrinks_coordinate|reflexivity|apply token_zeros|intros r; apply coordinate_fin; assumption]. Qed.
Lemma nested_fin n r : nested_points n ((coords_text n ++ $")") ++ r) = Got r.
Proof. rewrite <- app_assoc. apply items_fin. apply member_fin; [reflexivity|intros s _; apply point_fin]. Qed.
Lemma multipoint_fin n b r : blank b -> e_multipoint parse n ([40] ++ b ++ (coords_text n ++ $")") ++ r) = Got r.
Proof. intros Hb. rewrite multipoint_open; [|exact Hb|reflexivity]. change (looks_nested _) with true. cbn iota. apply nested_fin. Qed.
Lemma opening_stands t : stands parse $"'('" t -> hd_error t = Some 40.
Proof. intros H. inversion H; reflexivity. Qed.

Lemma errs_multipoint n : errs word_end open (e_multipoint parse n) (e_multipoint parse n).
Proof.
  intros t. destruct (N.eqb_spec (hd 0 t) chr_open) as [E|E].
  - apply N.eqb_eq in E. destruct (hd_eqb 40 t ltac:(discriminate) E) as [s ->]. clear E. destruct (span_space s) as (b & t2 & -> & Hb & Hs).
    change (40 :: b ++ t2) with ([40] ++ b ++ t2). rewrite (multipoint_open n b t2 Hb Hs). destruct (looks_nested t2) eqn:Ln.
    + rewrite app_assoc. apply (errs_prefix_hd ([40] ++ b) word_end (near 40) open (nested_points n)); [discriminate| |reflexivity|].
      * apply (errs_weaken parse anything word_end _ (near 40) _ _ (errs_nested n)); [intros; exact I|auto].
      * intros s H. assert (no_space s /\ looks_nested s = true) as [Hs' Ln'].
        { destruct H as [H|[H|H]]; try (split; [exact (hd_no_space _ _ H Hs)|unfold looks_nested; rewrite (hd_hd _ _ H); exact Ln]).
          destruct s; [discriminate H|]. injection H as ->. split; reflexivity. }
        rewrite <- app_assoc, (multipoint_open n b s Hb Hs'), Ln'. reflexivity.
    + destruct (list_eq_dec N.eq_dec b []) as [->|Hn].
      * apply (errs_prefix_hd [40] word_end (near 48) open (flat_points n)); [discriminate| |reflexivity|].
        -- apply (errs_weaken parse anything word_end _ (near 48) _ _ (errs_flat n)); [intros; exact I|auto].
        -- intros s H. assert (no_space s /\ looks_nested s = false) as [Hs' Ln'].
           { destruct H as [H|[H|H]]; try (split; [exact (hd_no_space _ _ H Hs)|unfold looks_nested; rewrite (hd_hd _ _ H); exact Ln]).
             destruct s; [discriminate H|]. injection H as ->. split; reflexivity. }
           change ([40] ++ s) with ([40] ++ [] ++ s). rewrite (multipoint_open n [] s Hb Hs'), Ln'. reflexivity.
      * destruct (exists_last Hn) as (b' & x & ->). rewrite last_last. apply Forall_app in Hb. destruct Hb as [Hb' Hx].
        assert (match b' ++ [x] with [] => flat_points n t2 | _ => Bad $"'('" (x :: t2) end = Bad $"'('" (x :: t2)) as -> by (destruct b'; reflexivity).
        exists ([40] ++ b'). split; [rewrite <- !app_assoc; reflexivity|]. split.
        { intros H. apply opening_stands in H. injection H as ->. inversion Hx as [|? ? H]. cbn in H. repeat destruct H as [H|H]; try discriminate H; exact H. }
        split; [congruence|]. exists (coords_text n ++ $")"). intros r' Hr. split; [apply (an_opening parse)|]. split; [reflexivity|].
        rewrite <- (app_assoc [40] b'). apply multipoint_fin. exact Hb'.
  - rewrite (multipoint_empty n t E). apply (errs_empty _ (coords_text n ++ $")")).
    + intros r _. apply (multipoint_fin n []). constructor.
    + intros s. apply multipoint_empty.
    + exact E.
Qed.
End Parser.
